(** Generated by tools/gen_data.py from /repo/tn/english/data: the lines of each table. *)
From Coq Require Import List NArith String.
Import ListNotations.
Local Open Scope string_scope.
(** tn/english/data/suppletive.tsv *)
Definition en_tn_data_suppletive : list string := [
"deer";
"fish";
"sheep";
"foot	feet";
"goose	geese";
"man	men";
"mouse	mice";
"tooth	teeth";
"woman	women";
"won";
"child	children";
"ox	oxen";
"wife	wives";
"wolf	wolves";
"analysis	analyses";
"criterion	criteria";
"lbs";
"focus	foci";
"percent";
"hertz";
"kroner	krone";
"inch	inches";
"calory	calories";
"yen";
"megahertz";
"gigahertz";
"kilohertz";
"hertz";
"CC";
"c c";
"horsepower";
"hundredweight";
"kilogram force	kilograms force";
"mega siemens";
"revolution per minute	revolutions per minute";
"mile per hour	miles per hour";
"megabit per second	megabits per second";
"square foot	square feet";
"centimeter per second	centimeters per second";
"meter per second	meters per second";
"kilometer per second	kilometers per second";
"meter per hour	meters per hour";
"bit per second	bits per second";
"kilometer per hour	kilometers per hour";
"kilobit per second	kilobits per second";
"kilo bit per second	kilo bits per second";
"megabit per second	megabits per second";
"mega bit per second	mega bits per second";
"gigabit per second	gigabits per second";
"giga bit per second	giga bits per second";
"terabit per second	terabits per second";
"tera bit per second	tera bits per second";
"petabit per second	petabits per second";
"peta bit per second	peta bits per second";
"byte per second	bytes per second";
"kilobyte per second	kilobytes per second";
"kilo byte per second	kilo bytes per second";
"megabyte per second	megabytes  per second";
"mega byte per second	mega bytes  per second";
"gigabyte per second	gigabytes per second";
"giga byte per second	giga bytes per second";
"terabyte per second	terabytes per second";
"tera byte per second	tera bytes per second";
"petabyte per second	petabytes per second";
"peta byte per second	peta bytes per second";
"degree Celsius	degrees Celsius";
"degree Fahrenheit	degrees Fahrenheit";
"degree celsius	degrees celsius";
"degree fahrenheit	degrees fahrenheit";
"kelvin	kelvin";
"ATM";
"AU";
"BQ";
"CC";
"CD";
"DA";
"EB";
"EV";
"F";
"GB";
"G";
"GL";
"GPA";
"GY";
"HA";
"H";
"HL";
"GP";
"HS";
"KB";
"KL";
"KN";
"KT";
"KV";
"LM";
"MA";
"MA";
"MB";
"MC";
"MF";
"M";
"MM";
"MS";
"MV";
"MW";
"PB";
"PG";
"PS";
"S";
"TB";
"YB";
"ZB"
].
(** tn/english/data/address/address_word.tsv *)
Definition en_tn_address_address_word : list string := [
"st	Street";
"street	Street";
"expy	Expressway";
"fwy	Freeway";
"hwy	Highway";
"dr	Drive";
"ct	Court";
"ave	Avenue";
"av	Avenue";
"cir	Circle";
"blvd	Boulevard";
"alley	Alley";
"way	Way";
"jct	Junction"
].
(** tn/english/data/address/state.tsv *)
Definition en_tn_address_state : list string := [
"Alabama	AL";
"Alaska	AK";
"Arizona	AZ";
"Arkansas	AR";
"California	CA";
"Colorado	CO";
"Connecticut	CT";
"Delaware	DE";
"Florida	FL";
"Georgia	GA";
"Hawaii	HI";
"Idaho	ID";
"Illinois	IL";
"Indiana	IND";
"Iowa	IA";
"Kansas	KS";
"Kentucky	KY";
"Louisiana	LA";
"Maine	ME";
"Maryland	MD";
"Massachusetts	MA";
"Michigan	MI";
"Minnesota	MN";
"Mississippi	MS";
"Missouri	MO";
"Montana	MT";
"Nebraska	NE";
"Nevada	NV";
"New Hampshire	NH";
"New Jersey	NJ";
"New Mexico	NM";
"New York	NY";
"North Carolina	NC";
"North Dakota	ND";
"Oregon	OR";
"Pennsylvania	PA";
"Rhode Island	RI";
"South Carolina	SC";
"South Dakota	SD";
"Tennessee	TN";
"Tennessee	TENN";
"Texas	TX";
"Utah	UT";
"Vermont	VT";
"Virginia	VA";
"Washington	WA";
"West Virginia	WV";
"Wisconsin	WI";
"Wyoming	WY"
].
(** tn/english/data/date/month_abbr.tsv *)
Definition en_tn_date_month_abbr : list string := [
"jan	january";
"Jan	january";
"JAN	january";
"feb	february";
"Feb	february";
"FEB	february";
"mar	march";
"Mar	march";
"MAR	march";
"apr	april";
"Apr	april";
"APR	april";
"jun	june";
"Jun	june";
"JUN	june";
"jul	july";
"Jul	july";
"JUL	july";
"aug	august";
"Aug	august";
"AUG	august";
"sep	september";
"Sep	september";
"SEP	september";
"sept	september";
"Sept	september";
"SEPT	september";
"oct	october";
"Oct	october";
"OCT	october";
"nov	november";
"Nov	november";
"NOV	november";
"dec	december";
"Dec	december";
"DEC	december"
].
(** tn/english/data/date/month_name.tsv *)
Definition en_tn_date_month_name : list string := [
"january	january";
"february	february";
"march	march";
"april	april";
"may	may";
"june	june";
"july	july";
"august	august";
"september	september";
"october	october";
"november	november";
"december	december";
"January	january";
"JANUARY	january";
"February	february";
"FEBRUARY	february";
"March	march";
"MARCH	march";
"April	april";
"APRIL	april";
"June	june";
"JUNE	june";
"July	july";
"JULY	july";
"August	august";
"AUGUST	august";
"September	september";
"SEPTEMBER	september";
"October	october";
"OCTOBER	october";
"November	november";
"NOVEMBER	november";
"December	december";
"DECEMBER	december"
].
(** tn/english/data/date/month_number.tsv *)
Definition en_tn_date_month_number : list string := [
"1	january";
"2	february";
"3	march";
"4	april";
"5	may";
"6	june";
"7	july";
"8	august";
"9	september";
"10	october";
"11	november";
"12	december";
"01	january";
"02	february";
"03	march";
"04	april";
"05	may";
"06	june";
"07	july";
"08	august";
"09	september";
"10	october";
"11	november";
"12	december"
].
(** tn/english/data/date/week.tsv *)
Definition en_tn_date_week : list string := [
"Mon	Monday";
"Mon.	Monday";
"Tu	Tuesday";
"Tu.	Tuesday";
"Wed	Wednesday";
"Wed.	Wednesday";
"Th	Thursday";
"Th.	Thursday";
"Thur	Thursday";
"Thur.	Thursday";
"Thurs	Thursday";
"Thurs.	Thursday";
"Fri	Friday";
"Fri.	Friday";
"Sat	Saturday";
"Sat.	Saturday";
"Sun	Sunday";
"Sun.	Sunday"
].
(** tn/english/data/date/year_suffix.tsv *)
Definition en_tn_date_year_suffix : list string := [
"A. D	AD";
"A.D	AD";
"a. d	AD";
"a.d	AD";
"a. d.	AD";
"a.d.	AD";
"B. C	BC";
"B.C	BC";
"b. c	BC";
"b.c	BC";
"A. D.	AD";
"A.D.	AD";
"B. C.	BC";
"B.C.	BC";
"b. c.	BC";
"b.c.	BC"
].
(** tn/english/data/electronic/domain.tsv *)
Definition en_tn_electronic_domain : list string := [
".com	dot com";
".org	dot org";
".gov	dot gov";
".uk	dot UK";
".fr	dot FR";
".net	dot net";
".br	dot BR";
".in	dot IN";
".ru	dot RU";
".de	dot DE";
".it	dot IT";
".jpg	dot jpeg"
].
(** tn/english/data/electronic/symbol.tsv *)
Definition en_tn_electronic_symbol : list string := [
".	dot";
"-	dash";
"_	underscore";
"!	exclamation mark";
"#	number sign";
"$	dollar sign";
"%	percent";
"&	ampersand";
"'	quote";
"*	asterisk";
"+	plus";
"/	slash";
"=	equal sign";
"?	question mark";
"^	circumflex";
"`	right single quote";
"|	vertical bar";
"~	tilde";
",	comma"
].
(** tn/english/data/electronic/words.tsv *)
Definition en_tn_electronic_words : list string := [
"drive";
"sim";
"early";
"access";
"program";
"rtx	RTX";
"developer";
"basepod	BASEPOD";
"cuda	CUDA";
"cv";
"enterprise";
"services";
"nvidia	NVIDIA";
"dgx	DGX";
"pro";
"help"
].
(** tn/english/data/measure/math_operation.tsv *)
Definition en_tn_measure_math_operation : list string := [
"+	plus";
"-	minus";
"/	divided";
"÷	divided";
":	divided";
"×	times";
"*	times";
"·	times"
].
(** tn/english/data/measure/unit.tsv *)
Definition en_tn_measure_unit : list string := [
"amu	atomic mass unit";
"bar	bar";
"°	degree";
"º	degree";
"°c	degree Celsius";
"°C	degree Celsius";
"ºc	degree Celsius";
"ºC	degree Celsius";
"℃	degree Celsius";
"cm2	square centimeter";
"cm²	square centimeter";
"cm3	cubic centimeter";
"cm³	cubic centimeter";
"cm	centimeter";
"cwt	hundredweight";
"db	decibel";
"dm3	cubic decimeter";
"dm³	cubic decimeter";
"dm	decimeter";
"ds	decisecond";
"°f	degree Fahrenheit";
"°F	degree Fahrenheit";
"℉	degree Fahrenheit";
"ft	foot";
"ghz	gigahertz";
"gw	gigawatt";
"gwh	gigawatt hour";
"hz	hertz";
"kbps	kilobit per second";
"kcal	kilo calory";
"kgf	kilogram force";
"kg	kilogram";
"khz	kilohertz";
"km2	square kilometer";
"km²	square kilometer";
"km3	cubic kilometer";
"km³	cubic kilometer";
"km	kilometer";
"kpa	kilopascal";
"kwh	kilowatt hour";
"kw	kilowatt";
"kW	kilowatt";
"lb	pound";
"lbs	pound";
"m2	square meter";
"m²	square meter";
"m3	cubic meter";
"m³	cubic meter";
"mbps	megabit per second";
"mg	milligram";
"mhz	megahertz";
"mi2	square mile";
"mi²	square mile";
"mi3	cubic mile";
"mi³	cubic mile";
"cu mi	cubic mile";
"mi	mile";
"min	minute";
"ml	milliliter";
"mm2	square millimeter";
"mm²	square millimeter";
"mol	mole";
"mpa	megapascal";
"mph	mile per hour";
"ng	nanogram";
"nm	nanometer";
"ns	nanosecond";
"oz	ounce";
"pa	pascal";
"%	percent";
"rad	radian";
"rpm	revolution per minute";
"sq ft	square foot";
"sq mi	square mile";
"sv	sievert";
"tb	terabyte";
"tj	terajoule";
"tl	teraliter";
"v	volt";
"yd	yard";
"μg	microgram";
"μm	micrometer";
"μs	microsecond";
"ω	ohm";
"atm	ATM";
"au	AU";
"bq	BQ";
"cc	CC";
"cd	CD";
"da	DA";
"eb	EB";
"ev	EV";
"f	F";
"gb	GB";
"g	G";
"gl	GL";
"gpa	GPA";
"gy	GY";
"ha	HA";
"h	H";
"hl	HL";
"hp	GP";
"hs	HS";
"kb	KB";
"kl	KL";
"kn	KN";
"kt	KT";
"kv	KV";
"lm	LM";
"ma	MA";
"mA	MA";
"mb	MB";
"mc	MC";
"mf	MF";
"m	M";
"mm	MM";
"ms	MS";
"mv	MV";
"mw	MW";
"pb	PB";
"pg	PG";
"ps	PS";
"s	S";
"tb	TB";
"tb	YB";
"zb	ZB"
].
(** tn/english/data/measure/unit_alternatives.tsv *)
Definition en_tn_measure_unit_alternatives : list string := [
"atm	atmosphere";
"bq	becquerel";
"cd	candela";
"da	dalton";
"eb	exabyte";
"gb	gigabyte";
"g	gram";
"gl	gigaliter";
"ha	hectare";
"h	hour";
"hl	hectoliter";
"hp	horsepower";
"hp	horsepower";
"kb	kilobit";
"kb	kilobyte";
"ma	megaampere";
"mA	megaampere";
"ma	milliampere";
"mA	milliampere";
"mb	megabyte";
"mc	megacoulomb";
"mf	megafarad";
"m	meter";
"m	minute";
"mm	millimeter";
"mm	millimeter";
"mm	millimeter";
"ms	megasecond";
"ms	mega siemens";
"ms	millisecond";
"mv	millivolt";
"mV	millivolt";
"mw	megawatt";
"mW	megawatt";
"pb	petabyte";
"pg	petagram";
"ps	petasecond";
"s	second";
"tb	terabyte";
"tb	terabyte";
"yb	yottabyte";
"zb	zettabyte"
].
(** tn/english/data/money/currency_major.tsv *)
Definition en_tn_money_currency_major : list string := [
"$	dollar";
"$	us dollar";
"US$	us dollar";
"฿	Thai Baht";
"£	pound";
"€	euro";
"₩	won";
"nzd	new zealand dollar";
"rs	rupee";
"chf	swiss franc";
"dkk	danish kroner";
"fim	finnish markka";
"aed	arab emirates dirham";
"¥	yen";
"czk	czech koruna";
"mro	mauritanian ouguiya";
"pkr	pakistani rupee";
"crc	costa rican colon";
"hk$	hong kong dollar";
"npr	nepalese rupee";
"awg	aruban florin";
"nok	norwegian kroner";
"tzs	tanzanian shilling";
"sek	swedish kronor";
"cyp	cypriot pound";
"r	real";
"sar	saudi riyal";
"cve	cape verde escudo";
"rsd	serbian dinar";
"dm	german mark";
"shp	saint helena pounds";
"php	philippine peso";
"cad	canadian dollar";
"ssp	south sudanese pound";
"scr	seychelles rupee";
"mvr	maldivian rufiyaa";
"DH	dirham";
"Dh	dirham";
"Dhs.	dirham"
].
(** tn/english/data/number/digit.tsv *)
Definition en_tn_number_digit : list string := [
"one	1";
"two	2";
"three	3";
"four	4";
"five	5";
"six	6";
"seven	7";
"eight	8";
"nine	9"
].
(** tn/english/data/number/fraction.tsv *)
Definition en_tn_number_fraction : list string := [
"¼	1/4";
"½	1/2";
"¾	3/4";
"⅐	1/7";
"⅑	1/9";
"⅒	1/10";
"⅓	1/3";
"⅔	2/3";
"⅕	1/5";
"⅖	2/5";
"⅗	3/5";
"⅘	4/5";
"⅙	1/6";
"⅚	5/6";
"⅛	1/8";
"⅜	3/8";
"⅝	5/8";
"⅞	7/8"
].
(** tn/english/data/number/quantity_abbr.tsv *)
Definition en_tn_number_quantity_abbr : list string := [
"M	million";
"MLN	million";
"m	million";
"mln	million";
"B	billion";
"b	billion";
"BN	billion";
"bn	billion";
"K	thousand";
"k	thousand"
].
(** tn/english/data/number/teen.tsv *)
Definition en_tn_number_teen : list string := [
"ten	10";
"eleven	11";
"twelve	12";
"thirteen	13";
"fourteen	14";
"fifteen	15";
"sixteen	16";
"seventeen	17";
"eighteen	18";
"nineteen	19"
].
(** tn/english/data/number/thousand.tsv *)
Definition en_tn_number_thousand : list string := [
"thousand";
"million";
"billion";
"trillion";
"quadrillion";
"quintillion";
"sextillion";
"septillion";
"octillion";
"nonillion";
"decillion";
"undecillion";
"duodecillion";
"tredecillion";
"quattuordecillion";
"quindecillion";
"sexdecillion";
"septendecillion";
"octodecillion";
"novemdecillion";
"vigintillion";
"centillion"
].
(** tn/english/data/number/ty.tsv *)
Definition en_tn_number_ty : list string := [
"twenty	2";
"thirty	3";
"forty	4";
"fifty	5";
"sixty	6";
"seventy	7";
"eighty	8";
"ninety	9"
].
(** tn/english/data/number/zero.tsv *)
Definition en_tn_number_zero : list string := [
"zero	0"
].
(** tn/english/data/ordinal/digit.tsv *)
Definition en_tn_ordinal_digit : list string := [
"first	one";
"second	two";
"third	three";
"fourth	four";
"fifth	five";
"sixth	six";
"seventh	seven";
"eighth	eight";
"ninth	nine"
].
(** tn/english/data/ordinal/teen.tsv *)
Definition en_tn_ordinal_teen : list string := [
"twelfth	twelve"
].
(** tn/english/data/telephone/ip_prompt.tsv *)
Definition en_tn_telephone_ip_prompt : list string := [
"IP address is";
"IP is"
].
(** tn/english/data/telephone/ssn_prompt.tsv *)
Definition en_tn_telephone_ssn_prompt : list string := [
"ssn is	SSN is";
"ssn is	SSN is";
"SSN is";
"SSN"
].
(** tn/english/data/telephone/telephone_prompt.tsv *)
Definition en_tn_telephone_telephone_prompt : list string := [
"call me at";
"reach at";
"reached at";
"my number is";
"hit me up at"
].
(** tn/english/data/time/suffix.tsv *)
Definition en_tn_time_suffix : list string := [
"p.m.	PM";
"p.m	PM";
"pm	PM";
"P.M.	PM";
"P.M	PM";
"PM	PM";
"a.m.	AM";
"a.m	AM";
"am	AM";
"A.M.	AM";
"A.M	AM";
"AM	AM"
].
(** tn/english/data/time/zone.tsv *)
Definition en_tn_time_zone : list string := [
"cst	CST";
"c.s.t	CST";
"cet	CET";
"c.e.t	CET";
"pst	PST";
"p.s.t	PST";
"est	EST";
"e.s.t	EST";
"pt	PT";
"p.t	PT";
"et	ET";
"e.t	ET";
"gmt	GMT";
"g.m.t	GMT"
].
(** tn/english/data/whitelist/alternatives.tsv *)
Definition en_tn_whitelist_alternatives : list string := [
"Hon.	Honorable";
"Mr.	Mister";
"Mrs.	Misses";
"Ms.	Miss";
"Mr	Mister";
"Mrs	Misses";
"Ms	Miss";
"&Co.	and Co.";
"&Co.	and Company";
"Mon	Monday";
"Tu	Tuesday";
"Wed	Wednesday";
"Th	Thursday";
"Thur	Thursday";
"Thurs	Thursday";
"Fri	Friday";
"Sat	Saturday";
"Sun	Sunday";
"=	equals";
"#	number";
"No.	number";
"NO.	number";
"NO.	number";
"No.	number";
"VOL.	Volume";
"Vol.	Volume";
"TV	Television"
].
(** tn/english/data/whitelist/symbol.tsv *)
Definition en_tn_whitelist_symbol : list string := [
"&	and";
"#	hash";
"@	at";
"§	section";
"™	trademark";
"®	registered trademark";
"©	copyright";
"_	underscore";
"%	percent";
"*	asterisk";
"+	plus";
"/	slash";
"=	equal sign";
"^	circumflex";
"|	vertical bar";
"~	tilde";
"$	dollar";
"£	pound";
"€	euro";
"₩	won";
"¥	yen";
"°	degree";
"º	degree"
].
(** tn/english/data/whitelist/tts.tsv *)
Definition en_tn_whitelist_tts : list string := [
"Ph.D.	PHD";
"Mt.	Mount";
"Maj.	Major";
"Rev.	Reverend";
"Gov.	governor";
"Bldg.	Building";
"Apt.	Apartment";
"World War II.	World War two";
"World War II	World War two";
"World War I.	World War one";
"World War I	World War one";
"SnO2	tin four oxide";
"HVAC	H-vac";
"SPDR	spider";
"ZIP	zip";
"~	approximately";
"χ	chi";
"Χ	chi";
"ε	epsilon";
"Ε	epsilon";
"φ	phi";
"Φ	phi";
"γ	gamma";
"Γ	gamma";
"η	eta";
"Η	eta";
"ι	iota";
"Ι	iota";
"κ	kappa";
"Κ	kappa";
"λ	lambda";
"Λ	lambda";
"μ	mu";
"Μ	mu";
"ν	nu";
"Ν	nu";
"ο	omicron";
"Ο	omicron";
"π	pi";
"Π	pi";
"θ	theta";
"Θ	theta";
"ρ	rho";
"Ρ	rho";
"σ	sigma";
"Σ	sigma";
"τ	tau";
"Τ	tau";
"υ	upsilon";
"Υ	upsilon";
"ω	omega";
"Ω	omega";
"ξ	xi";
"Ξ	xi";
"ψ	psi";
"Ψ	psi";
"ζ	zeta";
"Ζ	zeta";
"A. D	AD";
"A.D	AD";
"B. C	BC";
"B.C	BC";
"A. D.	AD";
"A.D.	AD";
"B. C.	BC";
"B.C.	BC";
"A. A.	a a";
"A.A.	AA";
"A&A	A and A";
"AAAs	AAA's";
"AaB	AAB";
"Aabo	AABO";
"AACNo	AACNO";
"AADTs	AADT's";
"Aadu	AADU";
"AAFld	AAFLD";
"Aap	AAP";
"A. B.	AB";
"A.B.	AB";
"Abhi	ABHI";
"Abl	ABL";
"Abp	ABP";
"Abr	ABR";
"Abz	ABZ";
"A&C	A and C";
"A. C.	AC";
"A.C.	AC";
"A/C	AC";
"Acad	ACAD";
"ACC&S	ACC and S";
"Achs	ACH's";
"Acis	ACI's";
"ACMs	ACM's";
"AcpA	ACPA";
"AcpB	ACPB";
"A&CR	A and CR";
"AcSOC	ACSOC";
"AC&W	AC and W";
"Acy	ACY";
"A&D	A and D";
"Adab	ADAB";
"A. D.	AD";
"A.D.	AD";
"A.D.A.M.	adam";
"AdaSL	ADASL";
"AdC	ADC";
"ADCs	ADC's";
"AD&D	AD and D";
"AdK	ADK";
"Adl	ADL";
"ADLs	ADL's";
"Adm	ADM";
"ADNs	ADN's";
"AdP	ADP";
"ADRs	ADR's";
"ADSRs	ADSR's";
"ADSs	ADS's";
"Adwa	ADWA";
"A&E	A and E";
"A. E.	AE";
"A.E.	AE";
"Aed	AED";
"Aeka	AEKA";
"Aema	AEMA";
"AEre	AERE";
"AErn	AERN";
"Aert	AERT";
"Aes	AE's";
"Afa	AFA";
"Af	AF";
"A. F.	AF";
"A.F.	AF";
"Afaf	AFAF";
"AFCSThe	AFCSTHE";
"Afd	AFD";
"AfD	AFD";
"AfDB	AFDB";
"Afe	AFE";
"Aff	AFF";
"Afi	AFI";
"Afiq	AFIQ";
"AFMs	AFM's";
"AfNS	AFNS";
"Afo	AFO";
"Afr	AFR";
"A. G.	AG";
"A.G.	AG";
"Agco	AGCO";
"Agda	AGDA";
"AG&G	AG and G";
"Agi	AGI";
"Agis	AGI's";
"Agn	AGN";
"AgN	AGN";
"AGNs	AGN's";
"AGRs	AGR's";
"Agsu	AGSU";
"Agte	AGTE";
"Agu	AGU";
"A. H.	AH";
"A.H.	AH";
"Ahdhra	AHDHRA";
"Ahe	AHE";
"Ahirs	AHIR's";
"Ahk	AHK";
"Ahsa'i	AHSAI";
"Ahta	AHTA";
"Ahu	AHU";
"Ahva	AHVA";
"A&I	A and I";
"A. I.	AI";
"A.I.	AI";
"Aias	AIA's";
"Aicme	AICME";
"AICs	AIC's";
"Aiel	AIEL";
"Aife	AIFE";
"AiG	AIG";
"Aigis	AIGI's";
"Aija	AIJA";
"Aik	AIK";
"AIs	AI's";
"Aist	AIST";
"Aitu	AITU";
"Aiud	AIUD";
"A. J.	AJ";
"A.J.	AJ";
"Ajba	AJBA";
"Ajmi	AJMI";
"Ajok	AJOK";
"Ajsa	AJSA";
"Aju	AJU";
"Akaa	AKAA";
"Aka.	AKA";
"Aka	AKA";
"A&K	A and K";
"A. K.	AK";
"A.K.	AK";
"AKAPs	AKAP's";
"AKAs	AKA's";
"Akpa	AKPA";
"Aku	AKU";
"A&L	A and L";
"A. L.	AL";
"A.L.	AL";
"Alh	ALH";
"ALUs	ALU's";
"A'ma	AMA";
"A&M	A and M";
"A. M.	AM";
"A.M.	AM";
"AMAs	AMA's";
"Amb	AMB";
"AmBX	AMBX";
"AMCs	AMC's";
"Amda	AMDA";
"Amd	AMD";
"AM&FM	AM and FM";
"Amha	AMHA";
"Amli	AMLI";
"Amlwch	AMLWCH";
"Amm	AMM";
"AM&O	AM and O";
"Ampt	AMPT";
"A&M's	A and M's";
"Ams'	AM's";
"Amta	AMTA";
"Amt	AMT";
"Amts	AMT's";
"Amu	AMU";
"A. N.	AN";
"A.N.	AN";
"andFHL	ANDFHL";
"andPPP	ANDPPP";
"Anej	ANEJ";
"Angti	ANGTI";
"Angu	ANGU";
"Anhe	ANHE";
"Anr	ANR";
"Anrep	ANREP";
"A&O	A and O";
"A. O.	AO";
"A.O.	AO";
"AOCCs	AOCC's";
"Aodh	AODH";
"Aodla	AODLA";
"Aogo	AOGO";
"Aoke	AOKE";
"Aoko	AOKO";
"Aola	AOLA";
"Aol	AOL";
"Aone	AONE";
"Aoni	AONI";
"Aoos	AOO's";
"AORs	AOR's";
"AoS	AOS";
"Aotus	AOTU's";
"A&P	A and P";
"A. P.	AP";
"A.P.	AP";
"Apc	APC";
"APCh	APCH";
"APCs	APC's";
"Aph	APH";
"Apiao	APIAO";
"Api	API";
"APi	API";
"Apic	APIC";
"APICv	APICV";
"Apl	APL";
"Aplu	APLU";
"Apphttp	APPHTTP";
"Appl	APPL";
"Appts	APPT's";
"Appu	APPU";
"A&P's	A and P's";
"Aps	AP's";
"APs	AP's";
"AP&T	AP and T";
"Aqa	AQA";
"Aql	AQL";
"Aqr	AQR";
"A&R	A and R";
"A. R.	AR";
"A.R.	AR";
"ArgR	ARGR";
"ARGs	ARG's";
"ArH	ARH";
"ARMv	ARMV";
"Arnd	ARND";
"Arv	ARV";
"Arwi	ARWI";
"As'ad	ASAD";
"Asai	ASAI";
"Asao	ASAO";
"A.s	A's";
"A. S.	AS";
"A.S.	AS";
"Asasp	ASASP";
"Asci	ASCI";
"Asdis	ASDI's";
"Asfi	ASFI";
"Asn	ASN";
"Aso	ASO";
"Aspe	ASPE";
"Asr	ASR";
"Assn	ASSN";
"Assoc	ASSOC";
"ASSPs	ASSP's";
"Asst	ASST";
"Aste	ASTE";
"Astt	ASTT";
"Aswa	ASWA";
"A&T	A and T";
"Atac	ATAC";
"Atad	ATAD";
"Ata's	ATA's";
"Atas	ATA's";
"A. T.	AT";
"A.T.	AT";
"ATBs	ATB's";
"Atg	ATG";
"Ath	ATH";
"Atia's	ATIA's";
"Ati	ATI";
"ATi	ATI";
"Atid	ATID";
"Atiiq	ATIIQ";
"Atil	ATIL";
"Atiq	ATIQ";
"Ativ	ATIV";
"Atka	ATKA";
"Atl	ATL";
"Atli	ATLI";
"Atm	ATM";
"ATMs	ATM's";
"Atos	ATO's";
"ATOs	ATO's";
"atpB	ATPB";
"Atri	ATRI";
"A&T's	A and T's";
"A.T.s	AT's";
"AT&SF	AT and SF";
"AT&T	AT and T";
"AT&T's	AT and T's";
"ATVs	ATV's";
"AtxA	ATXA";
"A. U.	AU";
"A.U.	AU";
"Aub	AUB";
"Aubl	AUBL";
"AUVs	AUV's";
"Auw	AUW";
"A. V.	AV";
"A.V.	AV";
"AVCs	AVC's";
"Avn	AVN";
"Avo	AVO";
"AvP	AVP";
"AVRs	AVR's";
"Avs'	AV's";
"Avs	AV's";
"Awa	AWA";
"AWAs	AWA's";
"A. W.	AW";
"A.W.	AW";
"Awo	AWO";
"Awwa	AWWA";
"A. X.	AX";
"A. Y.	AY";
"A.Y.	AY";
"A. Z.	AZ";
"A.Z.	AZ";
"Azg	AZG";
"Azi	AZI";
"AzTV	AZTV";
"Baad	BAAD";
"Ba'al	BAAL";
"Baal	BAAL";
"Baam	BAAM";
"Baap	BAAP";
"Baat	BAAT";
"Ba'ath	BAATH";
"B. A.	BA";
"B.A.	BA";
"B&A	B and A";
"Bac	BAC";
"Bae	BAE";
"BAe	BAE";
"Bauw	BAUW";
"B'Av	BAV";
"B&B	B and B";
"B. B.	BB";
"B.B.	BB";
"BB&CI	BB and CI";
"BBC&PJR	BBC and PJR";
"BBQ'er	BBQER";
"B&Bs	B and B's";
"BB&S	BB and S";
"BBSes	BBSE's";
"BB&T	BB and T";
"BbvCI	BBVCI";
"B. C.	BC";
"B.C.	BC";
"Bcci	BCCI";
"B.C.'s	BC's";
"BCs	BC's";
"BCSic	BCSIC";
"BdA	BDA";
"B. D.	BD";
"B.D.	BD";
"Bde	BDE";
"BdU	BDU";
"B. E.	BE";
"B.E.	BE";
"Bedw	BEDW";
"Bei	BEI";
"Beih	BEIH";
"Beis	BEI's";
"BEMs	BEM's";
"Ber	BER";
"Bes	BE's";
"B. F.	BF";
"B.F.	BF";
"BFFs	BFF's";
"B. G.	BG";
"B.G.	BG";
"BglII	BGLII";
"Bgy	BGY";
"Bha	BHA";
"B&H	B and H";
"B. H.	BH";
"B.H.	BH";
"BH&E	BH and E";
"Bhe	BHE";
"BHMs	BHM's";
"B. I.	BI";
"B.I.	BI";
"Bie	BIE";
"Biem	BIEM";
"B.I.G.'s	BIG's";
"BiH	BIH";
"B. J.	BJ";
"B.J.	BJ";
"BJPs	BJP's";
"B.J.'s	BJ's";
"B&K	B and K";
"B. K.	BK";
"B.K.	BK";
"BKCa	BKCA";
"B. L.	BL";
"B.L.	BL";
"Blla	BLLA";
"BLR&D	BLR and D";
"BLTs	BLT's";
"B&M	B and M";
"B. M.	BM";
"B.M.	BM";
"BMPs	BMP's";
"BMRs	BMR's";
"B&N	B and N";
"B. N.	BN";
"B.N.	BN";
"Boac	BOAC";
"B&O	B and O";
"B. O.	BO";
"B.O.	BO";
"Boc	BOC";
"BoC	BOC";
"BOCs	BOC's";
"Boj	BOJ";
"B&O's	B and O's";
"B. P.	BP";
"B.P.	BP";
"B&Q	B and Q";
"B. Q.	BQ";
"Brbic	BRBIC";
"B. R.	BR";
"B.R.	BR";
"BRBs	BRB's";
"Brne	BRNE";
"Brno	BRNO";
"BRTs	BRT's";
"Brza	BRZA";
"Brzyk	BRZYK";
"BsaL	BSAL";
"B. s	B's";
"B.'s	B's";
"Bs	B's";
"B. S.	BS";
"B.S.	BS";
"B. T.	BT";
"B.T.	BT";
"Btry	BTRY";
"BTUs	BTU's";
"B.U.	BU";
"B. V.	BV";
"B.V.	BV";
"Bwa	BWA";
"B&W	B and W";
"B. W.	BW";
"B.W.	BW";
"BWTs	BWT's";
"Bxa	BXA";
"Bxe	BXE";
"B. Y.	BY";
"Byk	BYK";
"Byo	BYO";
"Byou	BYOU";
"Byrl	BYRL";
"bySLC	BYSLC";
"B.Z.	BZ";
"Bzik	BZIK";
"Bzyb	BZYB";
"Caat	CAAT";
"C. A.	CA";
"C.A.	CA";
"C&A	C and A";
"CA&CC	CA and CC";
"Cadw	CADW";
"Cae	CAE";
"C.A.M.'s	CAM's";
"Capt.	captain";
"Cas	CA's";
"Casc	CASC";
"C. B.	CB";
"C.B.	CB";
"CB&CNS	CB and CNS";
"CBDs	CBD's";
"CBGBs	CBGB's";
"CbiXS	CBIXS";
"CB&Q	CB and Q";
"CBs	CB's";
"CcaA	CCAA";
"Cca	CCA";
"C&C	C and C";
"C. C.	CC";
"C.C.	CC";
"CCDev	CCDEV";
"CCDs	CCD's";
"CCEd	CCED";
"CCi	CCI";
"CCRCs	CCRC's";
"C&D	C and D";
"C. D.	CD";
"C.D.	CD";
"CD&DR	CD and DR";
"CDi	CDI";
"cDNA	CDNA";
"cDNAs	CDNA's";
"CDOs	CDO's";
"CDPs	CDP's";
"CD&R	CD and R";
"CDs	CD's";
"CDSPCo	CDSPCO";
"CdtA	CDTA";
"CdTe	CDTE";
"CDTi	CDTI";
"CD&V	CD and V";
"Cec	CEC";
"C'e	CE";
"Ce	CE";
"C. E.	CE";
"C.E.	CE";
"Ceel	CEEL";
"Cefn	CEFN";
"C&EI's	C and EI's";
"C&EN	C and EN";
"Cen	CEN";
"Ceol	CEOL";
"Ceorl	CEORL";
"Ceos	CEO's";
"CEOs'	CEO's";
"CEOs	CEO's";
"Cer	CER";
"Ces	CE's";
"Cex	CEX";
"CeX	CEX";
"Cfa	CFA";
"C&F	C and F";
"C. F.	CF";
"C.F.	CF";
"CFOs	CFO's";
"CFTs	CFT's";
"C&G	C and G";
"C. G.	CG";
"C.G.	CG";
"C&H	C and H";
"C. H.	CH";
"C.H.	CH";
"Chhu	CHHU";
"Chirs	CHIR's";
"CHP'den	CHPDEN";
"CHPs	CHP's";
"Chy	CHY";
"Cia	CIA";
"Ci	CI";
"C. I.	CI";
"C.I.	CI";
"Cicic	CICIC";
"Cim	CIM";
"Cio	CIO";
"CIOs	CIO's";
"Cip	CIP";
"CIs	CI's";
"CiTD	CITD";
"citS	CITS";
"CitX	CITX";
"Ciuc	CIUC";
"Ciu	CIU";
"CiU	CIU";
"Cixi	CIXI";
"C. J.	CJ";
"C.J.	CJ";
"C. K.	CK";
"C.K.	CK";
"CLBs	CLB's";
"C. L.	CL";
"C.L.	CL";
"Cle	CLE";
"CL&N	CL and N";
"Clo	CLO";
"CL&P	CL and P";
"CLs	CL's";
"CLTs	CLT's";
"Clu	CLU";
"Clwyd	CLWYD";
"C&MA	C and MA";
"C. M.	CM";
"C.M.	CM";
"CMCs	CMC's";
"Cmde	CMDE";
"CMMs	CMM's";
"Cmte	CMTE";
"C. N.	CN";
"C.N.	CN";
"CNMs	CNM's";
"CNs	CN's";
"CNTs	CNT's";
"Cnut's	CNUT's";
"CNVs	CNV's";
"C&O	C and O";
"C. O.	CO";
"C.O.	CO";
"Co.	company";
"Col.	colonel";
"C&P	C and P";
"C. P.	CP";
"C.P.	CP";
"CPCs	CPC's";
"CPUs	CPU's";
"CQDs	CQD's";
"C. R.	CR";
"C.R.	CR";
"Cre	CRE";
"Crkva	CRKVA";
"CRLs	CRL's";
"Crne	CRNE";
"Crni	CRNI";
"Crno	CRNO";
"CRs	CR's";
"Csa	CSA";
"Csak	CSAK";
"Csaky	CSAKY";
"C&S	C and S";
"C.s	C's";
"Cs	C's";
"C. S.	CS";
"C.S.	CS";
"C&SF	C and SF";
"CsI	CSI";
"CSis	CSI's";
"CSIs	CSI's";
"CSOs	CSO's";
"cspA	CSPA";
"CSPs	CSP's";
"CSSNCs	CSSNC's";
"Csuz	CSUZ";
"CTAs	CTA's";
"C&T	C and T";
"CTLs	CTL's";
"Ctrip	CTRIP";
"C. U.	CU";
"Cuyp	CUYP";
"C&V	C and V";
"C. V.	CV";
"C.V.	CV";
"CVEs	CVE's";
"CVOs	CVO's";
"CVs	CV's";
"CVTs	CVT's";
"C. W.	CW";
"C.W.	CW";
"Cwej	CWEJ";
"Cwele	CWELE";
"C.X.	CX";
"C. Y.	CY";
"C.Y.	CY";
"Cyn	CYN";
"CyP	CYP";
"Cyrl	CYRL";
"Cys	CY's";
"C.Z.	CZ";
"Daai	DAAI";
"D. A.	DA";
"D.A.	DA";
"D&AD	D and AD";
"D.A.N.C.E.	dance";
"Dav	DAV";
"dBa	DBA";
"D. B.	DB";
"D.B.	DB";
"DCCs	DCC's";
"D&C	D and C";
"D. C.	DC";
"D.C.	DC";
"DCom	DCOM";
"D.C.'s	DC's";
"DCs	DC's";
"DCUs	DCU's";
"D&D	D and D";
"D. D.	DD";
"D.D.	DD";
"DDi	DDI";
"Ddoc	DDOC";
"Ddu	DDU";
"Deah	DEAH";
"D. E.	DE";
"D.E.	DE";
"Dei	DEI";
"DeI	DEI";
"Deijm	DEIJM";
"Deip	DEIP";
"Dez	DEZ";
"Dfa	DFA";
"DFCs	DFC's";
"D. F.	DF";
"D.F.	DF";
"DfE	DFE";
"DfES	DFES";
"DFPs	DFP's";
"DFs	DF's";
"D&G	D and G";
"D. G.	DG";
"D.G.	DG";
"Dha	DHA";
"DHBs	DHB's";
"D&H	D and H";
"D. H.	DH";
"D.H.	DH";
"d'HEC	DHEC";
"Dheku	DHEKU";
"Dhod	DHOD";
"Dhol	DHOL";
"Dhoo	DHOO";
"Dhor	DHOR";
"Dhou	DHOU";
"DHSs	DHS's";
"D.I.	DI";
"DiY	DIY";
"Diyn	DIYN";
"DIYs	DIY's";
"Djam	DJAM";
"D. J.	DJ";
"D.J.	DJ";
"DJ'ed	DJED";
"Djem	DJEM";
"Dji	DJI";
"Djo	DJO";
"D'Jok	DJOK";
"D.J.s	DJ's";
"DJs	DJ's";
"DjVu	DJVU";
"DjVus	DJVU's";
"D. K.	DK";
"D.K.	DK";
"D. L.	DL";
"D.L.	DL";
"DL&LR	DL and LR";
"DLLs	DLL's";
"DL&W	DL and W";
"D.M.C.'s	DMC's";
"D&M	D and M";
"D. M.	DM";
"D.M.	DM";
"DMed	DMED";
"DM&E	DM and E";
"DMs	DM's";
"DMUs	DMU's";
"Dna	DNA";
"DnA	DNA";
"DnaJ	DNAJ";
"D. N.	DN";
"D.N.	DN";
"Dnepr	DNEPR";
"Dnes	DNE's";
"DNFs	DNF's";
"DNSBLs	DNSBL's";
"D.O.A.'s	DOA's";
"Dod	DOD";
"DoD	DOD";
"D. O.	DO";
"D.O.	DO";
"D'oh	DOH";
"Dok	DOK";
"Domt	DOMT";
"Dop	DOP";
"dotCMS	DOTCMS";
"DotSVN	DOTSVN";
"Douw	DOUW";
"d'OZ	DOZ";
"Dozhd	DOZHD";
"D. P.	DP";
"D.P.	DP";
"DProf	DPROF";
"DPs	DP's";
"D.Q.	DQ";
"Dr.	doctor";
"D. R.	DR";
"D.R.	DR";
"Dri	DRI";
"DRIs	DRI's";
"Driu	DRIU";
"Driv	DRIV";
"Drnis	DRNI's";
"Dro	DRO";
"Drs.	doctors";
"Drska	DRSKA";
"DsbA	DSBA";
"DS&BB	DS and BB";
"dsDNA	DSDNA";
"Ds	D's";
"D. S.	DS";
"D.S.	DS";
"DSGi	DSGI";
"DSi	DSI";
"DSMs	DSM's";
"D&SNGRR	D and SNGRR";
"DTCs	DTC's";
"DTDs	DTD's";
"D. T.	DT";
"D.T.	DT";
"DT&E	DT and E";
"DT&I	DT and I";
"DTs	DT's";
"D.U.	DU";
"Dva	DVA";
"DVCs	DVC's";
"DVDs	DVD's";
"D. V.	DV";
"D.V.	DV";
"Dvin	DVIN";
"Dvir	DVIR";
"Dwa	DWA";
"D&W	D and W";
"D. W.	DW";
"D.W.	DW";
"Dwedw	DWEDW";
"Dwi	DWI";
"D.X.	DX";
"DXers	DXER's";
"Dydd	DYDD";
"Dy	DY";
"D. Y.	DY";
"Dzog	DZOG";
"Dzor	DZOR";
"Dzus	DZU's";
"E. A.	EA";
"E.A.	EA";
"EAMs	EAM's";
"Eas	EA's";
"Eav	EAV";
"E. B.	EB";
"E.B.	EB";
"Ebn	EBN";
"E&BR	E and BR";
"Ebru	EBRU";
"EBWs	EBW's";
"Eccl	ECCL";
"Ec	EC";
"E. C.	EC";
"E.C.	EC";
"Ece	ECE";
"Ecem	ECEM";
"ECNs	ECN's";
"ECP&DA's	ECP and DA's";
"eCRM	ECRM";
"ECVs	ECV's";
"E. D.	ED";
"E.D.	ED";
"Edh	EDH";
"EDMs	EDM's";
"Edmx	EDMX";
"Edn	EDN";
"Eds	ED's";
"Edw	EDW";
"Eeb	EEB";
"E. E.	EE";
"E.E.	EE";
"Eef	EEF";
"Eega	EEGA";
"Ees	EE's";
"Eeuw	EEUW";
"EEZs	EEZ's";
"Ef	EF";
"E. F.	EF";
"E.F.	EF";
"eFS	EFS";
"Efs	EF's";
"Efu	EFU";
"Egba	EGBA";
"EG&G	EG and G";
"Egi	EGI";
"E&GR	E and GR";
"Egyl	EGYL";
"EHAs	EHA's";
"E. H.	EH";
"E.H.	EH";
"Ehttp	EHTTP";
"EiCs	EIC's";
"E. I.	EI";
"E.I.	EI";
"eIF	EIF";
"Eitr	EITR";
"EITs	EIT's";
"EJBs	EJB's";
"E. J.	EJ";
"E.J.	EJ";
"E. K.	EK";
"E.K.	EK";
"Ekma	EKMA";
"Ekow	EKOW";
"Eks	EK's";
"E. L.	EL";
"E.L.	EL";
"ELTs	ELT's";
"ELUs	ELU's";
"Embd	EMBD";
"eMC	EMC";
"EMDs	EMD's";
"Emea	EMEA";
"E&M	E and M";
"E. M.	EM";
"E.M.	EM";
"Emge	EMGE";
"E&NA	E and NA";
"Enas	ENA's";
"EnBW	ENBW";
"EncFS	ENCFS";
"Encyc	ENCYC";
"E. N.	EN";
"E.N.	EN";
"Enes	ENE's";
"Engl	ENGL";
"Engr	ENGR";
"Eni	ENI";
"Enn	ENN";
"Ens	EN's";
"Enso	ENSO";
"ENTJs	ENTJ's";
"EoD	EOD";
"E. O.	EO";
"E.O.	EO";
"Eois	EOI's";
"Eole	EOLE";
"Eol	EOL";
"Eolss	EOLS's";
"Eom	EOM";
"Eora	EORA";
"Eorl	EORL";
"Eors	EOR's";
"E&P	E and P";
"Epe	EPE";
"Ep	EP";
"E. P.	EP";
"E.P.	EP";
"Eph	EPH";
"Ephs	EPH's";
"Epi	EPI";
"ePO	EPO";
"Epos	EPO's";
"E.P.s	EP's";
"Eq	EQ";
"E. R.	ER";
"E.R.	ER";
"ERJs	ERJ's";
"Eru	ERU";
"Eruv	ERUV";
"Erv	ERV";
"ES3	ES three";
"Esa	ESA";
"Esam	ESAM";
"Esa's	ESA's";
"Esat	ESAT";
"ESCs	ESC's";
"Esd	ESD";
"E. S.	ES";
"E.S.	ES";
"ESPNhttp	ESPNHTTP";
"Esq	ESQ";
"Esq.	esquire";
"Esraa	ESRAA";
"Esra	ESRA";
"Esref	ESREF";
"Esri	ESRI";
"Estd	ESTD";
"Esva	ESVA";
"Etad	ETAD";
"ETBs	ETB's";
"E. T.	ET";
"E.T.	ET";
"ETFs	ETF's";
"Et'hem	ETHEM";
"Eti	ETI";
"Eto	ETO";
"Ets	ET's";
"ETs	ET's";
"Ett	ETT";
"Ettre	ETTRE";
"Etts	ETT's";
"Etz	ETZ";
"EUBs	EUB's";
"E. U.	EU";
"E.U.	EU";
"Eurwg	EURWG";
"Euse	EUSE";
"Eusi	EUSI";
"EvaGT	EVAGT";
"E. V.	EV";
"E.V.	EV";
"Evna	EVNA";
"EVs	EV's";
"Ewa's	EWA's";
"E. W.	EW";
"E.W.	EW";
"Ewha	EWHA";
"EWOs	EWO's";
"Ewu	EWU";
"E.X.	EX";
"Exptl	EXPTL";
"E&Y	E and Y";
"E. Y.	EY";
"Eyk	EYK";
"Ezaa	EZAA";
"Ez	EZ";
"Ezh	EZH";
"Ezu	EZU";
"Ezy	EZY";
"Faaa	FAAA";
"Faa	FAA";
"FabH	FABH";
"FabR	FABR";
"F.A.B.'s	FAB's";
"Fadl	FADL";
"Fa	FA";
"F. A.	FA";
"F.A.	FA";
"Faf	FAF";
"Fafhrd	FAFHRD";
"Fai	FAI";
"FAIPs	FAIP's";
"Faiq	FAIQ";
"Fal	FAL";
"Fasc	FASC";
"Fas	FA's";
"FAs	FA's";
"FasL	FASL";
"F. B.	FB";
"F.B.	FB";
"F.B.G.s	FBG's";
"FBOs	FBO's";
"FCBs	FCB's";
"F&C	F and C";
"F. C.	FC";
"F.C.	FC";
"F.C.'s	FC's";
"FD&C	FD and C";
"FDCPAs	FDCPA's";
"F. D.	FD";
"F.D.	FD";
"FDICs	FDIC's";
"FdI	FDI";
"F. E.	FE";
"F.E.	FE";
"FEGs	FEG's";
"Fes	FE's";
"F. F.	FF";
"F.F.	FF";
"FFs	FF's";
"F. G.	FG";
"F.G.	FG";
"FGs	FG's";
"F. H.	FH";
"F.H.	FH";
"FiBL	FIBL";
"Fi'd	FID";
"F.I	F";
"F&I	F and I";
"F. I.	FI";
"F.I.	FI";
"Figl	FIGL";
"Fio	FIO";
"FiO	FIO";
"F. J.	FJ";
"F.J.	FJ";
"F. K.	FK";
"F.K.	FK";
"Fla	FLA";
"Fles	FLE's";
"F. L.	FL";
"F.L.	FL";
"F. M.	FM";
"F.M.	FM";
"fMRI	FMRI";
"FMs	FM's";
"F. N.	FN";
"F.N.	FN";
"F. O.	FO";
"FPDs	FPD's";
"F. P.	FP";
"F.P.	FP";
"FPGAs	FPGA's";
"FPM&SA	FPM and SA";
"FPSs	FPS's";
"F.Q.	FQ";
"F. R.	FR";
"F.R.	FR";
"Fru	FRU";
"Frwydr	FRWYDR";
"F. s	F's";
"Fs	F's";
"F. S.	FS";
"F.S.	FS";
"FSSs	FSS's";
"FTAs	FTA's";
"Ft.	Fort";
"F. T.	FT";
"F.T.	FT";
"FtsA	FTSA";
"Ftuh	FTUH";
"F. V.	FV";
"F.V.	FV";
"F&W	F and W";
"F. W.	FW";
"F.W.	FW";
"Fyb	FYB";
"F.Y.	FY";
"Fyn	FYN";
"Fyw	FYW";
"F.Z.	FZ";
"Gaac	GAAC";
"G. A.	GA";
"G.A.	GA";
"Gbe	GBE";
"GbE	GBE";
"G. B.	GB";
"G.B.	GB";
"GB&NDR	GB and NDR";
"G&C	G and C";
"G. C.	GC";
"G.C.	GC";
"GCSEs	GCSE's";
"GC&SF	GC and SF";
"Gdal	GDAL";
"Gde	GDE";
"G. D.	GD";
"G.D.	GD";
"Gdow	GDOW";
"GDPs	GDP's";
"Gebr	GEBR";
"Gebt	GEBT";
"Ged	GED";
"G. E.	GE";
"G.E.	GE";
"Gek	GEK";
"Gen.	general";
"Geu	GEU";
"Gev	GEV";
"GeV	GEV";
"Gfa	GFA";
"GF&A	GF and A";
"G. F.	GF";
"G.F.	GF";
"G. G.	GG";
"G.G.	GG";
"Ghe	GHE";
"G. H.	GH";
"G.H.	GH";
"GHGs	GHG's";
"Ghir	GHIR";
"GH&SA	GH and SA";
"Giei	GIEI";
"G. I.	GI";
"G.I.	GI";
"G. J.	GJ";
"G.J.	GJ";
"G. K.	GK";
"G.K.	GK";
"Gla	GLA";
"G&L	G and L";
"G. L.	GL";
"G.L.	GL";
"Gli	GLI";
"Glis	GLI's";
"glnA	GLNA";
"Glos	GLO's";
"GmbH	GMBH";
"Gmel	GMEL";
"G. M.	GM";
"G.M.	GM";
"GMOs	GMO's";
"GMs	GM's";
"Gmul	GMUL";
"G. N.	GN";
"G.N.	GN";
"GNP&BR	GNP and BR";
"GNPs	GNP's";
"G.O.	GO";
"GPCRs	GPCR's";
"GPdI	GPDI";
"G&P	G and P";
"G. P.	GP";
"G.P.	GP";
"GpIIb	GPIIB";
"GPMGs	GPMG's";
"GPRs	GPR's";
"GPUs	GPU's";
"G. Q.	GQ";
"Gra	GRA";
"Grbac	GRBAC";
"GRBs	GRB's";
"GRCs	GRC's";
"Gre	GRE";
"G. R.	GR";
"G.R.	GR";
"Gryf	GRYF";
"Gry	GRY";
"G&S	G and S";
"Gs	G's";
"G. S.	GS";
"G.S.	GS";
"GSIs	GSI's";
"GSOp	GSOP";
"GTAs	GTA's";
"G. T.	GT";
"G.T.	GT";
"GTi	GTI";
"GTs	GT's";
"G. U.	GU";
"G.U.	GU";
"GUIs	GUI's";
"G. V.	GV";
"G.V.	GV";
"GvpA	GVPA";
"GWe	GWE";
"Gwet	GWET";
"G. W.	GW";
"G.W.	GW";
"Gwi	GWI";
"Gy	GY";
"G. Y.	GY";
"Gyn	GYN";
"Gyps	GYP's";
"Gyu	GYU";
"H. A.	HA";
"H.A.	HA";
"H&A	H and A";
"HBCo	HBCO";
"HBGAs	HBGA's";
"H. B.	HB";
"H.B.	HB";
"H&BR	H and BR";
"HCEs	HCE's";
"H. C.	HC";
"H.C.	HC";
"HClO	HCLO";
"HCoV	HCOV";
"HCPs	HCP's";
"Hcy	HCY";
"Hdad	HDAD";
"hDAF	HDAF";
"HDDs	HDD's";
"H. D.	HD";
"H.D.	HD";
"HDi	HDI";
"H. E.	HE";
"H.E.	HE";
"Hezb	HEZB";
"H&F	H and F";
"H. F.	HF";
"H.F.	HF";
"hgcA	HGCA";
"H. G.	HG";
"H.G.	HG";
"HgO	HGO";
"HGPs	HGP's";
"HgU	HGU";
"HGVs	HGV's";
"H&H	H and H";
"H. H.	HH";
"H.H.	HH";
"H. I.	HI";
"H.I.	HI";
"Hizb	HIZB";
"H. J.	HJ";
"H.J.	HJ";
"Hkam	HKAM";
"H&K	H and K";
"H. K.	HK";
"H.K.	HK";
"Hla	HLA";
"H. L.	HL";
"H.L.	HL";
"Hluk	HLUK";
"Hly	HLY";
"Hman	HMAN";
"H&M	H and M";
"H. M.	HM";
"H.M.	HM";
"HMOs	HMO's";
"hMRE	HMRE";
"H&M's	H and M's";
"H. N.	HN";
"H.N.	HN";
"H. O.	HO";
"H.O.	HO";
"H. P.	HP";
"H.P.	HP";
"H.Q.	HQ";
"H&R	H and R";
"H. R.	HR";
"H.R.	HR";
"HRo	HRO";
"HRs	HR's";
"Hsee	HSEE";
"Hs	H's";
"H. S.	HS";
"H.S.	HS";
"hSlo	HSLO";
"HSPs	HSP's";
"HSTs	HST's";
"hTAS	HTAS";
"HTAs	HTA's";
"H. T.	HT";
"H.T.	HT";
"Htin	HTIN";
"Htoo	HTOO";
"HtrA	HTRA";
"HTRs	HTR's";
"Htwa	HTWA";
"H. U.	HU";
"HVCs	HVC's";
"Hvem	HVEM";
"H. V.	HV";
"H.V.	HV";
"H. W.	HW";
"H.W.	HW";
"Hwy	HWY";
"H. Y.	HY";
"H.Y.	HY";
"H. Z.	HZ";
"HZ&PC	HZ and PC";
"IaaS	IAAS";
"Iaca	IACA";
"Iacob	IACOB";
"IACTs	IACT's";
"Iacub	IACUB";
"I. A.	IA";
"I.A.	IA";
"Iapa	IAPA";
"Iar	IAR";
"IAUCs	IAUC's";
"Iax	IAX";
"Ibac	IBAC";
"Ibaes	IBAE's";
"IBCs	IBC's";
"IBDA'A	IBDAA";
"Ibda	IBDA";
"I. B.	IB";
"I.B.	IB";
"Ibm	IBM";
"Ibne	IBNE";
"Ibra	IBRA";
"Ibsa	IBSA";
"Ibs	IB's";
"iBT	IBT";
"Ibu	IBU";
"ICBMs	ICBM's";
"Icche	ICCHE";
"I&C	I and C";
"Ic	IC";
"I. C.	IC";
"I.C.	IC";
"Ici	ICI";
"iCN	ICN";
"Ico	ICO";
"IcRn	ICRN";
"ICs	IC's";
"ICTs	ICT's";
"ICTVdB	ICTVDB";
"ICv	ICV";
"iCyt	ICYT";
"Iddaa	IDDAA";
"Idd	IDD";
"ID'd	IDD";
"I. D.	ID";
"I.D.	ID";
"Idi	IDI";
"Idir	IDIR";
"IDLHs	IDLH's";
"Idm	IDM";
"IDPs	IDP's";
"IDs	ID's";
"IDx	IDX";
"Ifa	IFA";
"IfF	IFF";
"Ifft	IFFT";
"Ifi	IFI";
"IFIs	IFI's";
"IfM	IFM";
"Ifni	IFNI";
"IFNs	IFN's";
"Ifop	IFOP";
"IFRSs	IFRS's";
"Iga	IGA";
"IgA	IGA";
"IGFs	IGF's";
"Ig	IG";
"I.G.	IG";
"IgM	IGM";
"Ign	IGN";
"Ih	IH";
"I. H.	IH";
"Ihn	IHN";
"Ihor	IHOR";
"Iht	IHT";
"IIb	IIB";
"IIc	IIC";
"IIfx	IIFX";
"Iiga	IIGA";
"IIga	IIGA";
"IIgs	IIG's";
"IIGs	IIG's";
"IIIb	IIIB";
"IIIBy	IIIBY";
"IIIc	IIIC";
"IIId	IIID";
"I. I.	II";
"I.I.	II";
"Ija	IJA";
"I. J.	IJ";
"Ijok	IJOK";
"Ijui	IJUI";
"Ikh	IKH";
"I.K.	IK";
"IKr	IKR";
"Iksa	IKSA";
"Iku	IKU";
"Ilbe	ILBE";
"IL&FS	IL and FS";
"Ili	ILI";
"I. L.	IL";
"I.L.	IL";
"Ilm	ILM";
"Ilu	ILU";
"IMbd	IMBD";
"IMDb.	IMDB";
"IMDb	IMDB";
"I&M	I and M";
"I. M.	IM";
"I.M.	IM";
"Iml	IML";
"Imm	IMM";
"Imms'	IMM's";
"Impr	IMPR";
"iMSNs	IMSN's";
"Imst	IMST";
"Inba	INBA";
"Ind	IND";
"Infs	INF's";
"inHg	INHG";
"I. N.	IN";
"I.N.	IN";
"InlB	INLB";
"InP	INP";
"Inre	INRE";
"Inspx	INSPX";
"Ints	INT's";
"INTs	INT's";
"Intu	INTU";
"Ioba	IOBA";
"IODs	IOD's";
".I.o.	IO";
"Io.	IO";
"Io	IO";
".IO	IO";
"I/O	IO";
"Ioka	IOKA";
"Iok	IOK";
"IoM	IOM";
"IOPs	IOP's";
"iOS	IOS";
"Io's	IO's";
"I/Os	IO's";
"I.O.'s	IO's";
"Iosu	IOSU";
"IoT	IOT";
"IoW	IOW";
"IPCs	IPC's";
"Ip	IP";
"I.P.	IP";
"Ipo	IPO";
"IPPs	IPP's";
"Ippu	IPPU";
"iPPV	IPPV";
"iPSC	IPSC";
"iPSCs	IPSC's";
"iPS	IPS";
"IPs	IP's";
"IPv	IPV";
"iQ	IQ";
"I.Q.	IQ";
"Irgm	IRGM";
"Irig	IRIG";
"Iril	IRIL";
"Ir	IR";
"I. R.	IR";
"I.R.	IR";
"Irla	IRLA";
"Irmis	IRMI's";
"Iro	IRO";
"Irra	IRRA";
"IRs	IR's";
"Iru	IRU";
"ISAv	ISAV";
"Isba	ISBA";
"ISBNs	ISBN's";
"isCf	ISCF";
"iSC	ISC";
"Isc	ISC";
"Isd	ISD";
"Isgec	ISGEC";
"Ishq	ISHQ";
"I. S.	IS";
"I.S.	IS";
"Isl	ISL";
"ISMNs	ISMN's";
"ISPs	ISP's";
"Isra'il	ISRAIL";
"Isra	ISRA";
"Iss	IS's";
"ISSNs	ISSN's";
"Isu	ISU";
"Ite	ITE";
"ITHs	ITH's";
"Iti	ITI";
"I.T.	IT";
"Itk	ITK";
"ITNNs	ITNN's";
"Itoi	ITOI";
"iTP	ITP";
"Itse	ITSE";
"Itu	ITU";
"Itz	ITZ";
"Iucn	IUCN";
"IUDs	IUD's";
"Iuz	IUZ";
"I. V.	IV";
"I.V.	IV";
"IVs	IV's";
"Ivu	IVU";
"Iwas	IWA's";
"Iwaz	IWAZ";
"IWBs	IWB's";
"I. W.	IW";
"Iwuh	IWUH";
"IXb	IXB";
"IXBs	IXB's";
"IXCs	IXC's";
"IXe	IXE";
"iXL	IXL";
"Iya	IYA";
"Iyar	IYAR";
"Iyi	IYI";
"I. Y.	IY";
"I.Y.	IY";
"Jaf	JAF";
"J. A.	JA";
"J&B	J and B";
"J. B.	JB";
"J.B.	JB";
"J. C.	JC";
"J.C.	JC";
"JCRs	JCR's";
"JdeBP	JDEBP";
"J. D.	JD";
"J.D.	JD";
"J&D's	J and D's";
"J.D.s	JD's";
"J. E.	JE";
"J.E.	JE";
"J. F.	JF";
"J.F.	JF";
"J. G.	JG";
"J.G.	JG";
"J. H.	JH";
"J.H.	JH";
"JHs	JH's";
"JHSVs	JHSV's";
"JHud	JHUD";
"J. I.	JI";
"J.I.	JI";
"J&J	J and J";
"J. J.	JJ";
"J.J.	JJ";
"Jka	JKA";
"J&K	J and K";
"J. K.	JK";
"J.K.	JK";
"J. L.	JL";
"J.L.	JL";
"J. M.	JM";
"J.M.	JM";
"J. N.	JN";
"J.N.	JN";
"Jno	JNO";
"J. O.	JO";
"J.O.	JO";
"J&P	J and P";
"J.P.	JP";
"J.Q.	JQ";
"J&R	J and R";
"J. R.	JR";
"J.R.	JR";
"Jr.	junior";
"Jr	junior";
"J.R.'s	JR's";
"Js	J's";
"J. S.	JS";
"J.S.	JS";
"J&T	J and T";
"J. T.	JT";
"J.T.	JT";
"JT&KW	JT and KW";
"J. U.	JU";
"J&V	J and V";
"J. V.	JV";
"J.V.	JV";
"Jwa	JWA";
"J. W.	JW";
"J.W.	JW";
"J. Y.	JY";
"J.Y.	JY";
"Jym	JYM";
"Jymn	JYMN";
"J. Z.	JZ";
"J.Z.	JZ";
"K. A.	KA";
"K.A.	KA";
"K&B	K and B";
"K. B.	KB";
"K.B.	KB";
"K. C.	KC";
"K.C.	KC";
"K.C.'s	KC's";
"kDa	KDA";
"K&D	K and D";
"K. D.	KD";
"K.D.	KD";
"K. D.'s	KD's";
"K.D.'s	KD's";
"Ke	KE";
"K. E.	KE";
"K.E.	KE";
"K.F.	KF";
"KgU	KGU";
"Khizr	KHIZR";
"K. H.	KH";
"K.H.	KH";
"Khlav	KHLAV";
"Khmu	KHMU";
"Khri	KHRI";
"Khru	KHRU";
"K. I.	KI";
"K.I.	KI";
"Kjer	KJER";
"K. J.	KJ";
"K.J.	KJ";
"Kjop	KJOP";
"KJo's	KJO's";
"K. K.	KK";
"K.K.	KK";
"Kle	KLE";
"K. L.	KL";
"K.L.	KL";
"K&M	K and M";
"K. M.	KM";
"K.M.	KM";
"K&N	K and N";
"K. N.	KN";
"K.N.	KN";
"K. O.	KO";
"K.O.	KO";
"KPIs	KPI's";
"K&P	K and P";
"K. P.	KP";
"K.P.	KP";
"Kppen	KPPEN";
"KRCs	KRC's";
"K.R.I.T.'s	KRIT's";
"Krka	KRKA";
"K. R.	KR";
"K.R.	KR";
"Krne	KRNE";
"Kroz	KROZ";
"Kru	KRU";
"Kseur	KSEUR";
"Ksevt	KSEVT";
"K. S.	KS";
"K.S.	KS";
"Ktav	KTAV";
"KT&K	KT and K";
"K. T.	KT";
"K.T.	KT";
"Kuaa	KUAA";
"Kud	KUD";
"K. U.	KU";
"K.U.	KU";
"Kutb	KUTB";
"Kvik	KVIK";
"Kvit	KVIT";
"K. V.	KV";
"K.V.	KV";
"Kvyat	KVYAT";
"Kyse	KYSE";
"Kyt	KYT";
"K. Z.	KZ";
"L. A.	LA";
"L.A.'s	LA's";
"Lay's	LAY's";
"LBi	LBI";
"L. B.	LB";
"L.B.	LB";
"LBPs	LBP's";
"LCAs	LCA's";
"LCCs	LCC's";
"LC&DR	LC and DR";
"LCDs	LCD's";
"LCIs	LCI's";
"L. C.	LC";
"L.C.	LC";
"LCSs	LCS's";
"LCTs	LCT's";
"LCVPs	LCVP's";
"Lda	LDA";
"LDCs	LDC's";
"L. D.	LD";
"L.D.	LD";
"L. E.	LE";
"L.E.	LE";
"LFFCs	LFFC's";
"L. F.	LF";
"L.F.	LF";
"LFs	LF's";
"LFSRs	LFSR's";
"L. G.	LG";
"L.G.	LG";
"LGMs	LGM's";
"LG&RDD	LG and RDD";
"LGs	LG's";
"LGUs	LGU's";
"LGVs	LGV's";
"Lha	LHA";
"L. H.	LH";
"L.H.	LH";
"L. I.	LI";
"L.I.	LI";
"Lje	LJE";
"L. J.	LJ";
"L.J.	LJ";
"L. K.	LK";
"Llapi	LLAPI";
"L&L	L and L";
"L. L.	LL";
"L.L.	LL";
"LMGs	LMG's";
"L. M.	LM";
"L.M.	LM";
"LMPs	LMP's";
"LMQs	LMQ's";
"LnAIB	LNAIB";
"L&N	L and N";
"L. N.	LN";
"L.N.	LN";
"L.O.C.'s	LOC's";
"Lokk	LOKK";
"l'OL	LOL";
"L. O.	LO";
"L.O.	LO";
"LPARs	LPAR's";
"L&P	L and P";
"L. P.	LP";
"L.P.	LP";
"L&PM	L and PM";
"LPMud	LPMUD";
"LPs	LP's";
"LPThe	LPTHE";
"L. R.	LR";
"L.R.	LR";
"LRTs	LRT's";
"LRVs	LRV's";
"LSDs	LSD's";
"LSi	LSI";
"Ls	L's";
"L. S.	LS";
"L.S.	LS";
"LSTs	LST's";
"LSVCCs	LSVCC's";
"Ltda	LTDA";
"Ltd.	limited";
"L&T	L and T";
"Lt.	lieutenant";
"L. T.	LT";
"L.T.	LT";
"L. U.	LU";
"L. V.	LV";
"L.V.	LV";
"L. W.	LW";
"L.W.	LW";
"L.Y.	LY";
"L&YR	L and YR";
"M. A.	MA";
"M.A.	MA";
"M&A	M and A";
"Mbewu	MBEWU";
"M. B.	MB";
"M.B.	MB";
"mBo	MBO";
"Mbre	MBRE";
"MCCs	MCC's";
"M. C.	MC";
"M.C.	MC";
"MCs	MC's";
"mcyG	MCYG";
"MDCs	MDC's";
"mdDA	MDDA";
"MD&DI	MD and DI";
"Mde	MDE";
"MDGs	MDG's";
"MDHUs	MDHU's";
"mDia	MDIA";
"MDic	MDIC";
"M. D.	MD";
"M.D.	MD";
"M. E.	ME";
"M.E.	ME";
"MFDs	MFD's";
"MFe	MFE";
"M. F.	MF";
"M.F.	MF";
"MFTs	MFT's";
"Mgadla	MGADLA";
"Mgal	MGAL";
"Mga	MGA";
"Mgbo	MGBO";
"MGen	MGEN";
"M&G	M and G";
"M. G.	MG";
"M.G.	MG";
"M&GN	M and GN";
"M&GR's	M and GR's";
"Mha	MHA";
"MHCs	MHC's";
"MH&L	MH and L";
"M&H	M and H";
"M. H.	MH";
"M.H.	MH";
"Mhor	MHOR";
"Mhow	MHOW";
"M.I.A.'s	MIA's";
"M&I	M and I";
"M. I.	MI";
"M.I.	MI";
"M&J	M and J";
"M. J.	MJ";
"M.J.	MJ";
"M. K.	MK";
"M.K.	MK";
"MKs	MK's";
"MLAs	MLA's";
"MLCs	MLC's";
"Mlle	MLLE";
"M&L	M and L";
"M. L.	ML";
"M.L.	ML";
"MLPs	MLP's";
"MM&A	MM and A";
"M&M	M and M";
"M. M.	MM";
"M.M.	MM";
"M&M's	M and M's";
"MNCs	MNC's";
"M&NF	M and NF";
"M. N.	MN";
"M.N.	MN";
"M.O.G.U.E.R.A.'s	MOGUERA's";
"M. O.	MO";
"M.O.	MO";
"MpA	MPA";
"MPAs	MPA's";
"MPBu	MPBU";
"MP&I	MP and I";
"MPi	MPI";
"MPLMs	MPLM's";
"M&P	M and P";
"M. P.	MP";
"M.P.	MP";
"MPPs	MPP's";
"M.P.'s	MP's";
"MPs	MP's";
"MPThe	MPTHE";
"Mpu	MPU";
"M. Q.	MQ";
"Mra	MRA";
"MRBs	MRB's";
"MR&LE	MR and LE";
"M. R.	MR";
"M.R.	MR";
"mRNA	MRNA";
"mRNAs	MRNA's";
"MRTs	MRT's";
"Mse	MSE";
"M&S	M and S";
"M. S.	MS";
"M.S.	MS";
"MSPs	MSP's";
"Mta	MTA";
"MTAs	MTA's";
"M&T	M and T";
"M. T.	MT";
"M.T.	MT";
"Mtor	MTOR";
"mtvU	MTVU";
"MTVu	MTVU";
"M. U.	MU";
"M.U.s	MU's";
"MVMs	MVM's";
"M. V.	MV";
"M.V.	MV";
"MVPs	MVP's";
"MVs	MV's";
"MWe	MWE";
"M. W.	MW";
"M.W.	MW";
"M. X.	MX";
"Myc	MYC";
"MyDD	MYDD";
"M. Y.	MY";
"M.Y.	MY";
"MySQL	MYSQL";
"M. Z.	MZ";
"N. A.	NA";
"N.A.	NA";
"N.B.A.'s	NBA's";
"NBAs	NBA's";
"N. B.	NB";
"N.B.	NB";
"NBTwo	NBTWO";
"NCAAs	NCAA's";
"NCCs	NCC's";
"N. C.	NC";
"N.C.	NC";
"NCOs	NCO's";
"N. D.	ND";
"N.D.	ND";
"N. E.	NE";
"N.E.	NE";
"NFATc	NFATC";
"N. F.	NF";
"N.F.	NF";
"Nge	NGE";
"N. G.	NG";
"N.G.	NG";
"NGOs	NGO's";
"Nha	NHA";
"NHCEs	NHCE's";
"NHCs	NHC's";
"NHM&W	NHM and W";
"N. H.	NH";
"N.H.	NH";
"NHPs	NHP's";
"N. I.	NI";
"N.I.	NI";
"N'I	NI";
"N. J.	NJ";
"N.J.	NJ";
"Njoo	NJOO";
"N.J.'s	NJ's";
"N. K.	NK";
"N.K.	NK";
"N. L.	NL";
"N.L.	NL";
"NLRs	NLR's";
"N. M.	NM";
"N.M.	NM";
"N. N.	NN";
"N.N.	NN";
"NPCs	NPC's";
"NPMs	NPM's";
"N. P.	NP";
"N.P.	NP";
"NPs	NP's";
"N. Q.	NQ";
"Nri	NRI";
"NRIs	NRI's";
"NRJs	NRJ's";
"N. R.	NR";
"N.R.	NR";
"N. S.	NS";
"N.S.	NS";
"NSOs	NSO's";
"Nta	NTA";
"N. T.	NT";
"N.T.	NT";
"N.U.	NU";
"NvDA's	NVDA's";
"N. V.	NV";
"N.V.	NV";
"N&W	N and W";
"N. W.	NW";
"N.W.	NW";
"N. Y.	NY";
"N.Y.	NY";
"N'Zif	NZIF";
"NZiK	NZIK";
"N'Zi	NZI";
"N.Z.	NZ";
"O. A.	OA";
"O.A.	OA";
"Oblt	OBLT";
"O.B.	OB";
"O. C.	OC";
"O.C.	OC";
"Octl	OCTL";
"O. D.	OD";
"O.E.	OE";
"O.F.	OF";
"O&G	O and G";
"O. G.	OG";
"O.G.	OG";
"O. H.	OH";
"O.H.	OH";
"O. I.	OI";
"O.I.	OI";
"O. J.	OJ";
"O.J.	OJ";
"OK'd	OKD";
"OKd	OKD";
"Oke	OKE";
"O&K	O and K";
"O. K.	OK";
"O.K.	OK";
"O. L.	OL";
"O.L.	OL";
"Olo	OLO";
"Olov	OLOV";
"OLs	OL's";
"O&MFL	O and MFL";
"OMGs	OMG's";
"O. M.	OM";
"O.M.	OM";
"OmOm	OMOM";
"Om's	OM's";
"O. N.	ON";
"O.N.	ON";
"O&O	O and O";
"O. O.	OO";
"O.O.	OO";
"Oop	OOP";
"Oo's	OO's";
"Ootw	OOTW";
"OPMs	OPM's";
"O. P.	OP";
"O.P.	OP";
"Opr	OPR";
"ORFs	ORF's";
"OR&N	OR and N";
"O. R.	OR";
"Osa	OSA";
"OSBs	OSB's";
"O. S.	OS";
"O.S.	OS";
"OSTs	OST's";
"O.T.	OT";
"OTs	OT's";
"Otu	OTU";
"O.U.	OU";
"Ovca	OVCA";
"Ovda	OVDA";
"Ovo	OVO";
"Ov	OV";
"O. V.	OV";
"O.V.	OV";
"OWCs	OWC's";
"O. W.	OW";
"O.W.	OW";
"P. A.	PA";
"P.A.	PA";
"pBCE	PBCE";
"P. B.	PB";
"P.B.	PB";
"PCBs	PCB's";
"PCDDs	PCDD's";
"PCeU	PCEU";
"PCIe	PCIE";
"PcoA	PCOA";
"P. C.	PC";
"P.C.	PC";
"PCRev	PCREV";
"P.C.s	PC's";
"pDAB	PDAB";
"PDAs	PDA's";
"PDBsum	PDBSUM";
"PDCs	PDC's";
"PD&D	PD and D";
"PDEs	PDE's";
"PDFs	PDF's";
"P&D	P and D";
"P. D.	PD";
"P.D.	PD";
"PDPs	PDP's";
"PDs	PD's";
"P.E.I.'s	PEI's";
"P. E.	PE";
"P.E.	PE";
"PFs	PF's";
"PFW&C	PFW and C";
"PGMs	PGM's";
"PG&N	PG and N";
"P&G	P and G";
"P. G.	PG";
"P.G.	PG";
"Phlo	PHLO";
"P&H	P and H";
"P. H.	PH";
"P.H.	PH";
"PHPs	PHP's";
"P&I	P and I";
"P. I.	PI";
"P.I.	PI";
"Piz	PIZ";
"P. J.	PJ";
"P.J.	PJ";
"PJs	PJ's";
"P. K.	PK";
"P.K.	PK";
"PLCs	PLC's";
"P. L.	PL";
"P.L.	PL";
"PMMoV	PMMOV";
"P. M.	PM";
"P.M.	PM";
"PMs	PM's";
"PNaCl	PNACL";
"Pnau	PNAU";
"PNEs	PNE's";
"PNETs	PNET's";
"PNNs	PNN's";
"PNoy	PNOY";
"P. N.	PN";
"P.N.	PN";
"P.O.D.'s	POD's";
"P&O	P and O";
"P. O.	PO";
"P.O.	PO";
"P.O.W.'s	POW's";
"P&PH	P and PH";
"PPi	PPI";
"P. P.	PP";
"P.P.	PP";
"PPVs	PPV's";
"PPy	PPY";
"P. R.	PR";
"P.R.	PR";
"P. s	P's";
"P.'s	P's";
"Ps	P's";
"P. S.	PS";
"P.S.	PS";
"PSSAs	PSSA's";
"pTA	PTA";
"PTAs	PTA's";
"Pte	PTE";
"PTEs	PTE's";
"Ptie	PTIE";
"PTLs	PTL's";
"Ptol	PTOL";
"P. T.	PT";
"P.T.	PT";
"PTTs	PTT's";
"P'Twa	PTWA";
"Puiu	PUIU";
"Pul	PUL";
"PVAs	PVA's";
"PvdA	PVDA";
"P. V.	PV";
"P.V.	PV";
"PVs	PV's";
"P&W	P and W";
"P. W.	PW";
"P.W.	PW";
"Pyi	PYI";
"Pyk	PYK";
"Pyl	PYL";
"PyL	PYL";
"P. Y.	PY";
"Pyu	PYU";
"Pyw	PYW";
"Pyx	PYX";
"P. Z.	PZ";
"Q. A.	QA";
"Q&A	Q and A";
"Q&A's	Q and A's";
"Q&As	Q and A's";
"QbA	QBA";
"Q.B.	QB";
"Q.C.	QC";
"Q. E.	QE";
"Q.H.	QH";
"Q.I.	QI";
"Q. J.	QJ";
"Q. N.	QN";
"QPOs	QPO's";
"Q.V.	QV";
"R. A.	RA";
"R.A.	RA";
"R&A	R and A";
"R&AW	R and AW";
"RbAg	RBAG";
"RBCs	RBC's";
"RBIs	RBI's";
"R&B	R and B";
"R. B.	RB";
"R.B.	RB";
"R&C	R and C";
"R. C.	RC";
"R.C.	RC";
"RCTs	RCT's";
"RdE	RDE";
"R&D	R and D";
"R. D.	RD";
"R.D.	RD";
"R.E.M.'s	REM's";
"REPLs	REPL's";
"R. E.	RE";
"R.E.	RE";
"R. F.	RF";
"R.F.	RF";
"R&G	R and G";
"R. G.	RG";
"R.G.	RG";
"RHIBs	RHIB's";
"Rhiw	RHIW";
"RhoG	RHOG";
"Rho's	RHO's";
"R. H.	RH";
"R.H.	RH";
"R&I	R and I";
"R. I.	RI";
"R.I.	RI";
"Riu	RIU";
"Rivu	RIVU";
"Rixt	RIXT";
"R. J.	RJ";
"R.J.	RJ";
"R. K.	RK";
"R.K.	RK";
"R. L.	RL";
"R.L.	RL";
"RMDs	RMD's";
"RMLs	RML's";
"R. M.	RM";
"R.M.	RM";
"RMSDs	RMSD's";
"RMs	RM's";
"RNAs	RNA's";
"Rnet	RNET";
"Rnic	RNIC";
"RNNs	RNN's";
"RNPs	RNP's";
"R. N.	RN";
"R.N.	RN";
"rOmpB	ROMPB";
"Rooi	ROOI";
"R. O.	RO";
"R.O.	RO";
"ROVs	ROV's";
"Roxb	ROXB";
"Roxx	ROXX";
"RP&C	RP and C";
"Rpe	RPE";
"RPGs	RPG's";
"R. P.	RP";
"R.P.	RP";
"RPs	RP's";
"R. Q.	RQ";
"R.Q.	RQ";
"Rreli	RRELI";
"rRNA	RRNA";
"rRNAs	RRNA's";
"R&R	R and R";
"R. R.	RR";
"R.R.	RR";
"Rsis	RSI's";
"RsmA	RSMA";
"RSpec	RSPEC";
"Rs	R's";
"R. S.	RS";
"R.S.	RS";
"RSu	RSU";
"RTCs	RTC's";
"RTEjr	RTEJR";
"RTeOR	RTEOR";
"RTOs	RTO's";
"rtPA	RTPA";
"R. T.	RT";
"R.T.	RT";
"RTVFBiH	RTVFBIH";
"Ruao	RUAO";
"Rukn	RUKN";
"Ruk	RUK";
"Rupf	RUPF";
"Rupr	RUPR";
"Rup	RUP";
"R. U.	RU";
"R.U.	RU";
"RutB	RUTB";
"Ruu	RUU";
"Ruwa	RUWA";
"Ruy	RUY";
"Ruyt	RUYT";
"Rvat	RVAT";
"Rvo	RVO";
"R. V.	RV";
"R.V.	RV";
"Rwa	RWA";
"RWEs	RWE's";
"R. W.	RW";
"R.W.	RW";
"Rxa	RXA";
"R. Z.	RZ";
"Sa'id	SAID";
"S. A.	SA";
"S.A.	SA";
"Saxl	SAXL";
"Sa'yo	SAYO";
"Sbai	SBAI";
"SBCs	SBC's";
"Sborz	SBORZ";
"S. B.	SB";
"S.B.	SB";
"Sbu	SBU";
"SCRs	SCR's";
"S. C.	SC";
"S.C.	SC";
"Scuf	SCUF";
"Scymn	SCYMN";
"SD&AE	SD and AE";
"Sdei	SDEI";
"Sde	SDE";
"SDG&E	SDG and E";
"S. D.	SD";
"S.D.	SD";
"SDSM&T's	SDSM and T's";
"Sejms	SEJM's";
"Sekl	SEKL";
"Sek	SEK";
"S. E.	SE";
"S.E.	SE";
"Ses	SE's";
"SEs	SE's";
"S.E.S.'s	SES's";
"Seyh	SEYH";
"Sfax	SFAX";
"SFFCo	SFFCO";
"S. F.	SF";
"S.F.	SF";
"S.F.'s	SF's";
"SG&A	SG and A";
"Sgip	SGIP";
"S. G.	SG";
"S.G.	SG";
"SGSNs	SGSN's";
"Sgt.	sergeant";
"S.H.I.E.L.D.'s	SHIELD's";
"Shma	SHMA";
"S. H.	SH";
"S.H.	SH";
"S. I.	SI";
"S.I.	SI";
"Sjon	SJON";
"S. J.	SJ";
"S.J.	SJ";
"S. K.	SK";
"S.K.	SK";
"S.L.A.A.'s	SLAA's";
"SLAs	SLA's";
"S&L	S and L";
"SLS&E	SLS and E";
"S. L.	SL";
"S.L.	SL";
"SMe	SME";
"SMEs	SME's";
"SmI	SMI";
"SMPSs	SMPS's";
"S&M	S and M";
"S. M.	SM";
"S.M.	SM";
"S.M.'s	SM's";
"SMs	SMS";
"Smyl	SMYL";
"SNESjr	SNESJR";
"SNPs	SNP's";
"SnSe	SNSE";
"S. N.	SN";
"S.N.	SN";
"S. O.	SO";
"S.O.	SO";
"Sos	SO's";
"Sovn	SOVN";
"Sov	SOV";
"S&P 500	S and P five  hundred";
"SPCAs	SPCA's";
"Spe	SPE";
"Spoa	SPOA";
"SpPIn	SPPIN";
"S&P	S and P";
"S. P.	SP";
"S.P.	SP";
"SPs	SP's";
"SPUs	SPU's";
"S. Q.	SQ";
"Sra	SRA";
"SRAs	SRA's";
"Srba	SRBA";
"Srbi	SRBI";
"SRBs	SRB's";
"SRGs	SRG's";
"Srhir	SRHIR";
"SRLGs	SRLG's";
"SRMs	SRM's";
"Srni	SRNI";
"S. R.	SR";
"S.R.	SR";
"Srul	SRUL";
"SSAs	SSA's";
"SSDs	SSD's";
"SSoSV	SSOSV";
"SSRIs	SSRI's";
"S&S	S and S";
"S. s	S's";
"Ss	S's";
"S. S.	SS";
"S.S.	SS";
"Ssu	SSU";
"Ssy	SSY";
"ST&AJ	ST and AJ";
"STDs	STD's";
"STGs	STG's";
"STIs	STI's";
"STi	STI";
"Stryj	STRYJ";
"S&T	S and T";
"STScI	STSCI";
"S. T.	ST";
"S.T.	ST";
"Suo	SUO";
"S. U.	SU";
"Susz	SUSZ";
"SUTs	SUT's";
"Suu	SUU";
"SUVs	SUV's";
"Suy	SUY";
"Svac	SVAC";
"Sve	SVE";
"SVMs	SVM's";
"S. V.	SV";
"S.V.	SV";
"SVTs	SVT's";
"Swe	SWE";
"SwRI	SWRI";
"S&W	S and W";
"S. W.	SW";
"S.W.	SW";
"S.X.	SX";
"SysML	SYSML";
"SysRq	SYSRQ";
"Sys	SY's";
"SysV	SYSV";
"S. Y.	SY";
"S.Y.	SY";
"SyT	SYT";
"Syxx	SYXX";
"Szasz	SZASZ";
"Szer	SZER";
"Szklo	SZKLO";
"Szlak	SZLAK";
"SzMME	SZMME";
"Szpir	SZPIR";
"S. Z.	SZ";
"Szu	SZU";
"Szyk	SZYK";
"Taf	TAF";
"T. A.	TA";
"T.A.	TA";
"T&A	T and A";
"TBCs	TBC's";
"TBMs	TBM's";
"T. B.	TB";
"T.B.	TB";
"TCiAP	TCIAP";
"TCKs	TCK's";
"T. C.	TC";
"T.C.	TC";
"TCUs	TCU's";
"TDCi	TDCI";
"TdIF	TDIF";
"TDs	TD's";
"T. D.	TD";
"T.D.	TD";
"Teatr	TEATR";
"T. E.	TE";
"T.E.	TE";
"T&F	T and F";
"T. F.	TF";
"T.F.	TF";
"T. G.	TG";
"T.G.	TG";
"TGVs	TGV's";
"Thok	THOK";
"ThSe	THSE";
"T. H.	TH";
"T.H.	TH";
"T.I.'s	TI's";
"T.I.	TI";
"Tiu	TIU";
"Tiv	TIV";
"Tiy's	TIY's";
"T. J.	TJ";
"T.J.	TJ";
"Tko	TKO";
"T. K.	TK";
"T.K.	TK";
"Tlas	TLA's";
"TlCu	TLCU";
"TLDs	TLD's";
"TLRs	TLR's";
"TLs	TL's";
"T. L.	TL";
"T.L.	TL";
"Tluk	TLUK";
"Tluszcz	TLUSZCZ";
"TMGs	TMG's";
"tmRNA	TMRNA";
"TMSs	TMS's";
"T.M.s	TM's";
"T. M.	TM";
"T.M.	TM";
"TNTAs	TNTA's";
"T. N.	TN";
"T.N.	TN";
"T.O.'s	TO's";
"T. O.	TO";
"T.O.	TO";
"Tou	TOU";
"ToU	TOU";
"tPA	TPA";
"T. P.	TP";
"T.P.	TP";
"TPVs	TPV's";
"T.Q.	TQ";
"Tra	TRA";
"Trbic	TRBIC";
"Trcek	TRCEK";
"TrkA	TRKA";
"Trmcic	TRMCIC";
"tRNA	TRNA";
"TRPs	TRP's";
"T. R.	TR";
"T.R.	TR";
"truTV	TRUTV";
"TruTV	TRUTV";
"Trve	TRVE";
"Tsa	TSA";
"Tsiv	TSIV";
"Tso	TSO";
"Ts	T's";
"T. S.	TS";
"T.S.	TS";
"Tsvi	TSVI";
"Tta	TTA";
"T&T	T and T";
"T. T.	TT";
"T.T.	TT";
"T'uqu	TUQU";
"T.U.	TU";
"Tuzk	TUZK";
"Tvam	TVAM";
"TVETs	TVET's";
"TVii	TVII";
"TVIn	TVIN";
"TVi	TVI";
"Tvo	TVO";
"TVRi	TVRI";
"TVSpy	TVSPY";
"TVs	TV's";
"tVTA	TVTA";
"T. V.	TV";
"T.V.	TV";
"Twa	TWA";
"Twi	TWI";
"TWTs	TWT's";
"T. W.	TW";
"T.W.	TW";
"TxDOT	TXDOT";
"T.X.	TX";
"Tyk	TYK";
"Tza'ar	TZAAR";
"Tze	TZE";
"Tzrif	TZRIF";
"Tzuh	TZUH";
"Tzvi	TZVI";
"Ua's	UA's";
"UAs	UA's";
"U.A.	UA";
"UAVs	UAV's";
"Uba	UBA";
"UbcM	UBCM";
"Ube	UBE";
"Ubi	UBI";
"Ucar	UCAR";
"Uca	UCA";
"Ucmak	UCMAK";
"Ucn	UCN";
"uCs	UC's";
"Uc	UC";
"U.C.	UC";
"Ucuncu	UCUNCU";
"Uczta	UCZTA";
"Uda	UDA";
"Udit	UDIT";
"Udny	UDNY";
"UDTs	UDT's";
"Ud	UD";
"U. D.	UD";
"Udu	UDU";
"Ueda's	UEDA's";
"Uéda	UE acute DA";
"U. E.	UE";
"UFOs	UFO's";
"Ufot	UFOT";
"Ufo	UFO";
"U. F.	UF";
"Uga	UGA";
"Uge	UGE";
"Ugni	UGNI";
"Ugra	UGRA";
"Ugrszke	UGRSZKE";
"Ug	UG";
"Uhha	UHHA";
"UHTCs	UHTC's";
"Uhud	UHUD";
"U.H.	UH";
"Uiam	UIAM";
"Uibh	UIBH";
"Uible	UIBLE";
"Uig	UIG";
"UiS	UIS";
"UiTM	UITM";
"Uit	UIT";
"Uiy	UIY";
"Ujed	UJED";
"Ujsag	UJSAG";
"U.J.	UJ";
"Uka	UKA";
"Ukhra	UKHRA";
"Ukic	UKIC";
"Uki	UKI";
"Ukoh	UKOH";
"Uko	UKO";
"Ukr	UKR";
"Ukui	UKUI";
"Uk	UK";
"U.K.	UK";
"Ukwu	UKWU";
"Ulic	ULIC";
"Ull	ULL";
"Ulms	ULM's";
"UlSU	ULSU";
"Uluj	ULUJ";
"U.L.	UL";
"Ulus	ULU's";
"Ulwa	ULWA";
"Ulwe	ULWE";
"Umbr	UMBR";
"UMe	UME";
"Umla	UMLA";
"Umme	UMME";
"Umno	UMNO";
"Umri	UMRI";
"U. M.	UM";
"U.M.	UM";
"Unli	UNLI";
"Unlu	UNLU";
"UNSh	UNSH";
"Unst	UNST";
"Uns	UN's";
"U.N.'s	UN's";
"Unt	UNT";
"U.N.	UN";
"Unz	UNZ";
"UOCl	UOCL";
"UofM	UOFM";
"Uoho	UOHO";
"UoMs	UOM's";
"uORF	UORF";
"UoW	UOW";
"UPBs	UPB's";
"Upd	UPD";
"Upf	UPF";
"Upir	UPIR";
"UPnP	UPNP";
"Uppu	UPPU";
"U.P.	UP";
"UPyD	UPYD";
"Urbz	URBZ";
"URCs	URC's";
"Urdd	URDD";
"Urei	UREI";
"Urla	URLA";
"URLhttp	URLHTTP";
"URLs	URL's";
"Usal	USAL";
"Usan	USAN";
".USA	USA";
"USAya	USAYA";
"USBs	USB's";
"Uscie	USCIE";
"U.S.C.'s	USC's";
"USDoE	USDOE";
"USFbA	USFBA";
"USF&WS	USF and WS";
"UShs	USH's";
"Usia	USIA";
"Uslu	USLU";
"Usmar	USMAR";
"Usna	USNA";
"Usnic	USNIC";
"Usoi	USOI";
"Usos	USO's";
"Uso	USO";
"USPs	USP's";
"U.S.'s	US's";
"Usti	USTI";
"Ustka	USTKA";
"Usui	USUI";
"U. S.	US";
"U.S.	US";
"Usut	USUT";
"Usvit	USVIT";
"Uta's	UTA's";
"Uta	UTA";
"Utca	UTCA";
"Utd's	UTD's";
"Utd	UTD";
"Utes	UTE's";
"Uth	UTH";
"Uti	UTI";
"Utne	UTNE";
"Utnur	UTNUR";
"Uto	UTO";
"Utsav	UTSAV";
"Utsu	UTSU";
"U.T.	UT";
"Utu	UTU";
"Utva	UTVA";
"Uuh	UUH";
"Uul	UUL";
"Uulu	UULU";
"Uusi	UUSI";
"UUs	UU's";
"Uuto	UUTO";
"Uvac	UVAC";
"Uvea	UVEA";
"Uvo	UVO";
"U.V.	UV";
"Uwasa	UWASA";
"UWFi	UWFI";
"V. A.	VA";
"V.A.	VA";
"V&A	V and A";
"Vav	VAV";
"Vay	VAY";
"V. B.	VB";
"V.B.	VB";
"VCDs	VCD's";
"VCRs	VCR's";
"VCSELs	VCSEL's";
"VCs	VC's";
"VCTs	VCT's";
"V. C.	VC";
"V.C.	VC";
"Vda	VDA";
"VDCs	VDC's";
"V. D.	VD";
"V.D.	VD";
"Vez	VEZ";
"V. F.	VF";
"V.F.	VF";
"V'Ger	VGER";
"VGo	VGO";
"VGSCs	VGSC's";
"VGSoM	VGSOM";
"V. G.	VG";
"V.G.	VG";
"V. H.	VH";
"V.I.C.'s	VIC's";
"Vict	VICT";
"Vij	VIJ";
"V.I.P.s	VIP's";
"VIPs	VIP's";
"V. I.	VI";
"V.I.	VI";
"VJs	VJ's";
"V. J.	VJ";
"V.J.	VJ";
"V. K.	VK";
"V.K.	VK";
"Vlah	VLAH";
"VLCCs	VLCC's";
"Vlijt	VLIJT";
"V. L.	VL";
"V.L.	VL";
"VMAs	VMA's";
"V. M.	VM";
"V.M.	VM";
"V. N.	VN";
"V.N.	VN";
"V.O.	VO";
"Vov	VOV";
"Voz	VOZ";
"VPNs	VPN's";
"V. P.	VP";
"V.P.	VP";
"Vrba	VRBA";
"Vrbuv	VRBUV";
"Vrej	VREJ";
"Vrin	VRIN";
"Vrouw	VROUW";
"Vrsac	VRSAC";
"Vrtis	VRTI's";
"V&R	V and R";
"V. R.	VR";
"V.R.	VR";
"VSANs	VSAN's";
"VSATs	VSAT's";
"Vsekh	VSEKH";
"VSPs	VSP's";
"VTE	VT eL";
"Vtic	VTIC";
"VTi	VTI";
"V&T's	V and T's";
"V&T	V and T";
"V.T.	VT";
"Vuur	VUUR";
"VVIPs	VVIP's";
"V. V.	VV";
"V.V.	VV";
"VWs	VW's";
"Vyg	VYG";
"V. Z.	VZ";
"Waay	WAAY";
"Wa'il	WAIL";
"Wakf	WAKF";
"Waqt	WAQT";
"Wasl	WASL";
"Watfa	WATFA";
"Wau	WAU";
"W. A.	WA";
"W.A.	WA";
"Waza	WAZA";
"WBs	WB's";
"W. B.	WB";
"W.B.	WB";
"W&CBR	W and CBR";
"W. C.	WC";
"W.C.	WC";
"W. D.	WD";
"W.D.	WD";
"W. E.	WE";
"W.E.	WE";
"WF&NW	WF and NW";
"W&F	W and F";
"W. F.	WF";
"W.F.	WF";
"W. G.	WG";
"W.G.	WG";
"W&H	W and H";
"W. H.	WH";
"W.H.	WH";
"Whyld	WHYLD";
"Wica	WICA";
"Wif	WIF";
"Wijk	WIJK";
"Wiwa	WIWA";
"W. I.	WI";
"W&J's	W and J's";
"W&J	W and J";
"W. J.	WJ";
"W.J.	WJ";
"W. K.	WK";
"W.K.	WK";
"W&LE	W and LE";
"Wley	WLEY";
"W. L.	WL";
"W.L.	WL";
"W&M	W and M";
"W. M.	WM";
"W.M.	WM";
"W. N.	WN";
"W.N.	WN";
"W&OD	W and OD";
"Worh	WORH";
"W. O.	WO";
"W.O.	WO";
"W. P.	WP";
"W.P.	WP";
"Wrec	WREC";
"W. R.	WR";
"W.R.	WR";
"W. S.	WS";
"W.S.	WS";
"WTs	WT's";
"WTTs	WTT's";
"W. T.	WT";
"W.T.	WT";
"WUAs	WUA's";
"Wudl	WUDL";
"Wuhr	WUHR";
"Wuhu	WUHU";
"Wu's	WU's";
"W. U.	WU";
"Wuz	WUZ";
"WVa	WVA";
"W. V.	WV";
"W.V.	WV";
"Wwe	WWE";
"W. W.	WW";
"W.W.	WW";
"W.Y.	WY";
"W. Z.	WZ";
"Xbra	XBRA";
"xCo	XCO";
"X. C.	XC";
"XDRs	XDR's";
"X. D.	XD";
"Xfce	XFCE";
"X.F.	XF";
"X. H.	XH";
"X.M.	XM";
"xO	XO";
"X.O.	XO";
"XPe	XPE";
"X.Q.	XQ";
"XSi	XSI";
"XTwas	XTWA's";
"X. W.	XW";
"xyZ	XYZ";
"Y. A.	YA";
"Y.A.	YA";
"Y. B.	YB";
"Y.B.	YB";
"Y. C.	YC";
"Y.C.	YC";
"Ydby	YDBY";
"Yde	YDE";
"YdiB	YDIB";
"Y. D.	YD";
"Y.D.	YD";
"Y.E.	YE";
"YFCs	YFC's";
"YF&R	YF and R";
"Y. G.	YG";
"Y.G.	YG";
"Y. H.	YH";
"Y. I.	YI";
"Y.I.	YI";
"Y. J.	YJ";
"Ykt	YKT";
"Y. K.	YK";
"Y.K.	YK";
"Yle	YLE";
"Y. L.	YL";
"Ymke	YMKE";
"Y. M.	YM";
"Yndi	YNDI";
"Yngve	YNGVE";
"Ynis	YNI's";
"Yn	YN";
"Y. N.	YN";
"Y.N.	YN";
"Y.O.	YO";
"Y.P.	YP";
"Y. Q.	YQ";
"Yra	YRA";
"Y&R	Y and R";
"YSK'da	YSKDA";
"YSK'ya	YSKYA";
"Ys	Y's";
"Y.S.	YS";
"Ytre	YTRE";
"Y&T	Y and T";
"Y. T.	YT";
"Y.T.	YT";
"Y. V.	YV";
"Y. W.	YW";
"Y.Y.	YY";
"Z. A.	ZA";
"Z.A.	ZA";
"Zdar	ZDAR";
"Z.G.	ZG";
"Z. H.	ZH";
"Z.H.	ZH";
"Zij	ZIJ";
"Z. I.	ZI";
"Z. J.	ZJ";
"Z.K.	ZK";
"Z.L.	ZL";
"Z.M.	ZM";
"ZnO	ZNO";
"Zpav	ZPAV";
"Z.P.	ZP";
"ZrI	ZRI";
"Zsuzsa	ZSUZSA";
"Z.W.	ZW";
"Z.X.	ZX";
"Z. Y.	ZY";
"Z.Y.	ZY";
"Z. Z.	ZZ";
"Z.Z.	ZZ"
].
(** The characters of the categories P* in Unicode 14.0.0, as ranges (tn/english/rules/punctuation.py:46-49). *)
Definition unicode_punct : list (N * N) := [
(33, 35);
(37, 42);
(44, 47);
(58, 59);
(63, 64);
(91, 93);
(95, 95);
(123, 123);
(125, 125);
(161, 161);
(167, 167);
(171, 171);
(182, 183);
(187, 187);
(191, 191);
(894, 894);
(903, 903);
(1370, 1375);
(1417, 1418);
(1470, 1470);
(1472, 1472);
(1475, 1475);
(1478, 1478);
(1523, 1524);
(1545, 1546);
(1548, 1549);
(1563, 1563);
(1565, 1567);
(1642, 1645);
(1748, 1748);
(1792, 1805);
(2039, 2041);
(2096, 2110);
(2142, 2142);
(2404, 2405);
(2416, 2416);
(2557, 2557);
(2678, 2678);
(2800, 2800);
(3191, 3191);
(3204, 3204);
(3572, 3572);
(3663, 3663);
(3674, 3675);
(3844, 3858);
(3860, 3860);
(3898, 3901);
(3973, 3973);
(4048, 4052);
(4057, 4058);
(4170, 4175);
(4347, 4347);
(4960, 4968);
(5120, 5120);
(5742, 5742);
(5787, 5788);
(5867, 5869);
(5941, 5942);
(6100, 6102);
(6104, 6106);
(6144, 6154);
(6468, 6469);
(6686, 6687);
(6816, 6822);
(6824, 6829);
(7002, 7008);
(7037, 7038);
(7164, 7167);
(7227, 7231);
(7294, 7295);
(7360, 7367);
(7379, 7379);
(8208, 8231);
(8240, 8259);
(8261, 8273);
(8275, 8286);
(8317, 8318);
(8333, 8334);
(8968, 8971);
(9001, 9002);
(10088, 10101);
(10181, 10182);
(10214, 10223);
(10627, 10648);
(10712, 10715);
(10748, 10749);
(11513, 11516);
(11518, 11519);
(11632, 11632);
(11776, 11822);
(11824, 11855);
(11858, 11869);
(12289, 12291);
(12296, 12305);
(12308, 12319);
(12336, 12336);
(12349, 12349);
(12448, 12448);
(12539, 12539);
(42238, 42239);
(42509, 42511);
(42611, 42611);
(42622, 42622);
(42738, 42743);
(43124, 43127);
(43214, 43215);
(43256, 43258);
(43260, 43260);
(43310, 43311);
(43359, 43359);
(43457, 43469);
(43486, 43487);
(43612, 43615);
(43742, 43743);
(43760, 43761);
(44011, 44011);
(64830, 64831);
(65040, 65049);
(65072, 65106);
(65108, 65121);
(65123, 65123);
(65128, 65128);
(65130, 65131);
(65281, 65283);
(65285, 65290);
(65292, 65295);
(65306, 65307);
(65311, 65312);
(65339, 65341);
(65343, 65343);
(65371, 65371);
(65373, 65373);
(65375, 65381);
(65792, 65794);
(66463, 66463);
(66512, 66512);
(66927, 66927);
(67671, 67671);
(67871, 67871);
(67903, 67903);
(68176, 68184);
(68223, 68223);
(68336, 68342);
(68409, 68415);
(68505, 68508);
(69293, 69293);
(69461, 69465);
(69510, 69513);
(69703, 69709);
(69819, 69820);
(69822, 69825);
(69952, 69955);
(70004, 70005);
(70085, 70088);
(70093, 70093);
(70107, 70107);
(70109, 70111);
(70200, 70205);
(70313, 70313);
(70731, 70735);
(70746, 70747);
(70749, 70749);
(70854, 70854);
(71105, 71127);
(71233, 71235);
(71264, 71276);
(71353, 71353);
(71484, 71486);
(71739, 71739);
(72004, 72006);
(72162, 72162);
(72255, 72262);
(72346, 72348);
(72350, 72354);
(72769, 72773);
(72816, 72817);
(73463, 73464);
(73727, 73727);
(74864, 74868);
(77809, 77810);
(92782, 92783);
(92917, 92917);
(92983, 92987);
(92996, 92996);
(93847, 93850);
(94178, 94178);
(113823, 113823);
(121479, 121483);
(125278, 125279)
]%N.
