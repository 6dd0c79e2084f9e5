(** Generated by tools/gen_data.py from /repo/itn/chinese/data: the lines of each table. *)
From Coq Require Import List String.
Import ListNotations.
Local Open Scope string_scope.
(** itn/chinese/data/date/dd.tsv *)
Definition zh_itn_date_dd : list string := [
"一日	01";
"二日	02";
"三日	03";
"四日	04";
"五日	05";
"六日	06";
"七日	07";
"八日	08";
"九日	09";
"十日	10";
"十一日	11";
"十二日	12";
"十三日	13";
"十四日	14";
"十五日	15";
"十六日	16";
"十七日	17";
"十八日	18";
"十九日	19";
"二十日	20";
"二十一日	21";
"二十二日	22";
"二十三日	23";
"二十四日	24";
"二十五日	25";
"二十六日	26";
"二十七日	27";
"二十八日	28";
"二十九日	29";
"三十日	30";
"三十一日	31";
"一号	01";
"二号	02";
"三号	03";
"四号	04";
"五号	05";
"六号	06";
"七号	07";
"八号	08";
"九号	09";
"十号	10";
"十一号	11";
"十二号	12";
"十三号	13";
"十四号	14";
"十五号	15";
"十六号	16";
"十七号	17";
"十八号	18";
"十九号	19";
"二十号	20";
"二十一号	21";
"二十二号	22";
"二十三号	23";
"二十四号	24";
"二十五号	25";
"二十六号	26";
"二十七号	27";
"二十八号	28";
"二十九号	29";
"三十号	30";
"三十一号	31"
].
(** itn/chinese/data/date/mm.tsv *)
Definition zh_itn_date_mm : list string := [
"一月	01";
"二月	02";
"三月	03";
"四月	04";
"五月	05";
"六月	06";
"七月	07";
"八月	08";
"九月	09";
"十月	10";
"十一月	11";
"十二月	12"
].
(** itn/chinese/data/default/blacklist.tsv *)
Definition zh_itn_default_blacklist : list string := [
"呃";
"啊"
].
(** itn/chinese/data/default/whitelist.tsv *)
Definition zh_itn_default_whitelist : list string := [
"三七二十一	三七二十一";
"一共	一共";
"一个	一个";
"一下	一下";
"一些	一些";
"一起	一起";
"一会	一会";
"一路	一路";
"二维码	二维码";
"慢一点	慢一点";
"一般	一般";
"统一	统一";
"星期一	星期一";
"星期二	星期二";
"星期三	星期三";
"星期四	星期四";
"星期五	星期五";
"星期六	星期六";
"一年一度	一年一度";
"一点一滴	一点一滴";
"三心二意	三心二意";
"阳春三月	阳春三月";
"七嘴八舌	七嘴八舌";
"四分五裂	四分五裂";
"七荤八素	七荤八素";
"三纲五常	三纲五常";
"三姑六婆	三姑六婆";
"四大皆空	四大皆空";
"五体投地	五体投地";
"六神无主	六神无主";
"七窍生烟	七窍生烟";
"七擒七纵	七擒七纵";
"八仙过海	八仙过海";
"十恶不赦	十恶不赦";
"一言九鼎	一言九鼎";
"一应俱全	一应俱全";
"一窍不通	一窍不通";
"一盘散沙	一盘散沙";
"十全十美	十全十美";
"一五一十	一五一十";
"让你三分	让你三分";
"乱七八糟	乱七八糟";
"一日三餐	一日三餐";
"十分高兴	十分高兴";
"十万八千里	十万八千里";
"四川	四川";
"三明	三明";
"九寨沟	九寨沟";
"七里河	七里河";
"九江	九江";
"六安	六安";
"十堰	十堰";
"八公山	八公山";
"七台河	七台河";
"五常	五常";
"四平	四平";
"四子王旗	四子王旗";
"三亚	三亚";
"二连浩特	二连浩特";
"零陵	零陵";
"五台山	五台山";
"六盘水	六盘水";
"八宿	八宿";
"十二五	十二五";
"十三五	十三五";
"十四五	十四五";
"几十万	几十万";
"几百万	几百万";
"几千万	几千万";
"十几万	十几万";
"二十几万	二十几万";
"三十几万	三十几万";
"四十几万	四十几万";
"五十几万	五十几万";
"六十几万	六十几万";
"七十几万	七十几万";
"八十几万	八十几万";
"九十几万	九十几万";
"七乘二十四小时	7x24小时";
"七乘二十四个小时	7x24个小时";
"四S店	4S店";
"四s店	4s店"
].
(** itn/chinese/data/license_plate/province.tsv *)
Definition zh_itn_license_plate_province : list string := [
"京";
"津";
"沪";
"渝";
"冀";
"豫";
"云";
"辽";
"黑";
"湘";
"皖";
"鲁";
"新";
"苏";
"浙";
"赣";
"鄂";
"桂";
"甘";
"晋";
"蒙";
"陕";
"吉";
"闽";
"贵";
"粤";
"青";
"藏";
"川";
"宁";
"琼"
].
(** itn/chinese/data/math/operator.tsv *)
Definition zh_itn_math_operator : list string := [
"乘	×";
"减	-";
"到	~";
"加	+";
"比	:";
"等于	=";
"除	÷"
].
(** itn/chinese/data/measure/units_en.tsv *)
Definition zh_itn_measure_units_en : list string := [
"原子质量	amu";
"巴	bar";
"平方厘米	cm²";
"立方厘米	cm³";
"厘米	cm";
"美担	cwt";
"摄氏度	°C";
"分贝	db";
"立方分米	dm³";
"分米	dm";
"英尺	ft";
"华氏度	°F";
"吉字节	gb";
"吉赫兹	ghz";
"吉帕斯卡	gpa";
"吉瓦时	gwh";
"吉瓦	gw";
"戈瑞	gy";
"小时	h";
"公顷	ha";
"赫兹	hz";
"千比特每秒	kbps";
"千比特一秒	kbps";
"千卡	kcal";
"千克力	kgf";
"千克	kg";
"公斤	kg";
"千赫兹	khz";
"平方千米	km²";
"公里	km";
"公里每小时	km/h";
"公里一小时	km/h";
"千米	km";
"千米每小时	km/h";
"千米一小时	km/h";
"千帕	kpa";
"千瓦时	kwh";
"千瓦	kw";
"磅	lbs";
"平方米	m²";
"立方米	m³";
"兆比特每秒	mbps";
"兆比特一秒	mbps";
"克	g";
"毫克	mg";
"兆赫兹	mhz";
"平方英里	mi²";
"分钟	min";
"英里	mi";
"毫升	ml";
"平方毫米	mm²";
"毫米	mm";
"摩尔	mol";
"兆帕	mpa";
"英里每小时	mph";
"英里一小时	mph";
"毫秒	ms";
"毫伏	mv";
"毫瓦	mw";
"千伏	kv";
"米	m";
"纳克	ng";
"纳米	nm";
"纳秒	ns";
"盎司	oz";
"度	º";
"帕斯卡	pa";
"皮克	pg";
"皮秒	ps";
"弧度	rad";
"转每分	rpm";
"平方英尺	sq ft";
"平方英里	sq mi";
"系沃特	sv";
"秒	s";
"太字节	tb";
"万亿焦耳	tj";
"台两	tl";
"伏特	v";
"码	yd";
"微克	μg";
"微米	μm";
"微秒	μs";
"欧米茄	ω";
"度	°"
].
(** itn/chinese/data/measure/units_zh.tsv *)
Definition zh_itn_measure_units_zh : list string := [
"年来";
"年前";
"年后";
"年内";
"年之前";
"年之后";
"人";
"篇";
"帧";
"把";
"封";
"艘";
"套";
"段";
"匹";
"张";
"座";
"回";
"场";
"尾";
"条";
"个";
"首";
"阙";
"阵";
"网";
"炮";
"顶";
"丘";
"棵";
"只";
"支";
"袭";
"辆";
"挑";
"担";
"颗";
"壳";
"窠";
"曲";
"墙";
"群";
"腔";
"砣";
"座";
"客";
"贯";
"扎";
"捆";
"刀";
"令";
"手";
"罗";
"坡";
"山";
"岭";
"江";
"溪";
"钟";
"队";
"单";
"双";
"对";
"口";
"头";
"脚";
"板";
"跳";
"枝";
"件";
"贴";
"针";
"线";
"管";
"名";
"位";
"身";
"堂";
"课";
"本";
"页";
"家";
"户";
"层";
"丝";
"毫";
"厘";
"分";
"钱";
"斤";
"担";
"铢";
"石";
"钧";
"锱";
"忽";
"克";
"毫";
"厘";
"寸";
"尺";
"丈";
"里";
"寻";
"常";
"铺";
"程";
"米";
"撮";
"勺";
"合";
"升";
"斗";
"石";
"盘";
"碗";
"碟";
"叠";
"桶";
"笼";
"盆";
"盒";
"杯";
"钟";
"斛";
"锅";
"簋";
"篮";
"盘";
"桶";
"罐";
"瓶";
"壶";
"卮";
"盏";
"箩";
"箱";
"煲";
"啖";
"袋";
"钵";
"季";
"年";
"月";
"日";
"刻";
"时";
"周";
"天";
"秒";
"旬";
"纪";
"岁";
"世";
"更";
"夜";
"春";
"夏";
"秋";
"冬";
"代";
"伏";
"辈";
"丸";
"泡";
"粒";
"颗";
"幢";
"堆";
"条";
"根";
"支";
"道";
"面";
"片";
"张";
"颗";
"块";
"架";
"角";
"毛";
"字";
"元";
"两";
"两米饭";
"两酒";
"吨";
"顿";
"牛";
"次";
"号"
].
(** itn/chinese/data/money/code.tsv *)
Definition zh_itn_money_code : list string := [
"澳元	A$";
"阿联酋迪拉姆	AED";
"阿富汗 阿富汗尼	AFN";
"阿尔巴尼亚列克	ALL";
"荷属安的列斯盾	ANG";
"阿根廷比索	ARS";
"澳元	AUD";
"阿鲁巴盾	AWG";
"阿塞拜疆马纳特	AZN";
"波斯尼亚和黑塞哥维那可兑换马克	BAM";
"巴巴多斯元	BBD";
"保加利亚列弗	BGN";
"百慕大元	BMD";
"文莱达鲁萨兰国元	BND";
"玻利维亚玻利维亚诺	BOB";
"巴西雷亚尔	BRL";
"巴哈马元	BSD";
"博茨瓦纳普拉	BWP";
"白俄罗斯卢布	BYN";
"伯利兹元	BZD";
"加元	CAD$";
"加元	CAD";
"瑞士法郎	CHF";
"智利比索	CLP";
"人民币	CNY";
"哥伦比亚比索	COP";
"哥斯达黎加科隆	CRC";
"古巴比索	CUP";
"捷克克朗	CZK";
"丹麦克朗	DKK";
"多米尼加共和国比索	DOP";
"埃及镑	EGP";
"欧元成员国	EUR";
"斐济元	FJD";
"福克兰群岛（马尔维纳斯）镑	FKP";
"英镑	GBP";
"根西岛镑	GGP";
"加纳塞地	GHS";
"直布罗陀镑	GIP";
"危地马拉格查尔	GTQ";
"圭亚那元	GYD";
"港元	HK＄";
"港元	HKD";
"洪都拉斯伦皮拉	HNL";
"克罗地亚库纳	HRK";
"匈牙利福林	HUF";
"印尼盾	IDR";
"以色列谢克尔	ILS";
"马恩岛英镑	IMP";
"印度卢比	INR";
"伊朗里亚尔	IRR";
"冰岛克朗	ISK";
"日元	J￥";
"泽西镑	JEP";
"牙买加元	JMD";
"日元	JPY￥";
"日元	JPY";
"吉尔吉斯斯坦索姆	KGS";
"柬埔寨瑞尔	KHR";
"朝鲜园	KPW";
"韩元	KRW";
"韩元	KRW";
"开曼群岛元	KYD";
"哈萨克斯坦腾格	KZT";
"老挝基普	LAK";
"黎巴嫩镑	LBP";
"斯里兰卡卢比	LKR";
"利比里亚元	LRD";
"马其顿代纳尔	MKD";
"摩洛哥迪拉姆	MNT";
"蒙古图格里克	MNT";
"毛里求斯卢比	MUR";
"墨西哥比索	MXN";
"马来西亚令吉	MYR";
"莫桑比克梅蒂卡尔	MZN";
"纳米比亚元	NAD";
"尼日利亚奈拉	NGN";
"尼加拉瓜科尔多瓦	NIO";
"挪威克朗	NOK";
"尼泊尔卢比	NPR";
"新西兰元	NZD";
"阿曼里亚尔	OMR";
"巴拿马巴尔博亚	PAB";
"秘鲁索尔	PEN";
"菲律宾比索	PHP";
"巴基斯坦卢比	PKR";
"波兰兹罗提	PLN";
"巴拉圭瓜拉尼	PYG";
"卡塔尔里亚尔	QAR";
"罗马尼亚列伊	RON";
"塞尔维亚第纳尔	RSD";
"俄罗斯卢布	RUB";
"沙特阿拉伯里亚尔	SAR";
"所罗门群岛元	SBD";
"塞舌尔卢比	SCR";
"瑞典克朗	SEK";
"新加坡元	SGD";
"圣赫勒拿镑	SHP";
"索马里先令	SOS";
"苏里南元	SRD";
"萨尔瓦多科隆	SVC";
"叙利亚镑	SYP";
"泰铢	THB";
"土耳其里拉	TRY";
"特立尼达和多巴哥元	TTD";
"图瓦卢元	TVD";
"新台币	TWD";
"乌克兰格里夫纳	UAH";
"美元	USD";
"乌拉圭比索	UYU";
"乌兹别克斯坦索姆	UZS";
"委内瑞拉玻利瓦尔	VEF";
"越南东	VND";
"东加勒比元	XCD";
"也门里亚尔	YER";
"南非兰特	ZAR";
"津巴布韦元	ZWD"
].
(** itn/chinese/data/money/symbol.tsv *)
Definition zh_itn_money_symbol : list string := [
"加纳塞地	¢";
"玻利维亚玻利维亚诺	$b";
"乌拉圭比索	$U";
"美元	$";
"英镑	£";
"元	¥";
"泰铢	฿";
"柬埔寨瑞尔	៛";
"哥斯达黎加科隆	₡";
"尼日利亚奈拉	₦";
"朝鲜园	₩";
"以色列谢克尔	₪";
"越南东	₫";
"欧元	€";
"老挝基普	₭";
"蒙古图格里克	₮";
"古巴比索	₱";
"菲律宾比索	₱";
"乌克兰格里夫纳	₴";
"印度卢比	₹";
"土耳其里拉	₺";
"卢布	₽";
"白俄罗斯卢布	Br";
"委内瑞拉玻利瓦尔	Bs";
"伯利兹元	BZ$";
"巴拿马巴尔博亚	B/.";
"尼加拉瓜科尔多瓦	C$";
"瑞士法郎	CHF";
"匈牙利福林	Ft";
"阿鲁巴盾	ƒ";
"巴拉圭瓜拉尼	Gs";
"牙买加元	J$";
"捷克克朗	Kč";
"波斯尼亚和黑塞哥维那可兑换马克	KM";
"克罗地亚库纳	kn";
"丹麦克朗	kr";
"罗马尼亚列伊	lei";
"阿尔巴尼亚列克	Lek";
"洪都拉斯伦皮拉	L";
"莫桑比克梅蒂卡尔	MT";
"博茨瓦纳普拉	P";
"危地马拉格查尔	Q";
"巴西雷亚尔	R$";
"多米尼加共和国比索	RD$";
"马来西亚令吉	RM";
"印尼盾	Rp";
"巴基斯坦卢比	₨";
"毛里求斯卢比	₨";
"南非兰特	R";
"秘鲁索尔	S/.";
"索马里先令	S";
"特立尼达和多巴哥元	TT$";
"津巴布韦元	Z$";
"波兰兹罗提	zł";
"马其顿代纳尔	ден";
"塞尔维亚第纳尔	Дин.";
"乌兹别克斯坦索姆	лв";
"保加利亚列弗	лв";
"吉尔吉斯斯坦索姆	лв";
"哈萨克斯坦腾格	лв"
].
(** itn/chinese/data/number/digit.tsv *)
Definition zh_itn_number_digit : list string := [
"一	1";
"幺	1";
"壹	1";
"二	2";
"两	2";
"贰	2";
"三	3";
"叁	3";
"四	4";
"肆	4";
"五	5";
"伍	5";
"六	6";
"陆	6";
"七	7";
"柒	7";
"拐	7";
"八	8";
"捌	8";
"九	9";
"玖	9"
].
(** itn/chinese/data/number/digit_zh.tsv *)
Definition zh_itn_number_digit_zh : list string := [
"一";
"二";
"两";
"三";
"四";
"五";
"六";
"七";
"八";
"九"
].
(** itn/chinese/data/number/dot.tsv *)
Definition zh_itn_number_dot : list string := [
"点	.";
"點	."
].
(** itn/chinese/data/number/repeat_digit.tsv *)
Definition zh_itn_number_repeat_digit : list string := [
"七个一	1111111";
"七个七	7777777";
"七个三	3333333";
"七个两	2222222";
"七个九	9999999";
"七个二	2222222";
"七个五	5555555";
"七个伍	5555555";
"七个八	8888888";
"七个六	6666666";
"七个叁	3333333";
"七个四	4444444";
"七个壹	1111111";
"七个幺	1111111";
"七个拐	7777777";
"七个捌	8888888";
"七个柒	7777777";
"七个洞	0000000";
"七个玖	9999999";
"七个肆	4444444";
"七个贰	2222222";
"七个陆	6666666";
"七个零	0000000";
"三个一	111";
"三个七	777";
"三个三	333";
"三个两	222";
"三个九	999";
"三个二	222";
"三个五	555";
"三个伍	555";
"三个八	888";
"三个六	666";
"三个叁	333";
"三个四	444";
"三个壹	111";
"三个幺	111";
"三个拐	777";
"三个捌	888";
"三个柒	777";
"三个洞	000";
"三个玖	999";
"三个肆	444";
"三个贰	222";
"三个陆	666";
"三个零	000";
"九个一	111111111";
"九个七	777777777";
"九个三	333333333";
"九个两	222222222";
"九个九	999999999";
"九个二	222222222";
"九个五	555555555";
"九个伍	555555555";
"九个八	888888888";
"九个六	666666666";
"九个叁	333333333";
"九个四	444444444";
"九个壹	111111111";
"九个幺	111111111";
"九个拐	777777777";
"九个捌	888888888";
"九个柒	777777777";
"九个洞	000000000";
"九个玖	999999999";
"九个肆	444444444";
"九个贰	222222222";
"九个陆	666666666";
"九个零	000000000";
"五个一	11111";
"五个七	77777";
"五个三	33333";
"五个两	22222";
"五个九	99999";
"五个二	22222";
"五个五	55555";
"五个伍	55555";
"五个八	88888";
"五个六	66666";
"五个叁	33333";
"五个四	44444";
"五个壹	11111";
"五个幺	11111";
"五个拐	77777";
"五个捌	88888";
"五个柒	77777";
"五个洞	00000";
"五个玖	99999";
"五个肆	44444";
"五个贰	22222";
"五个陆	66666";
"五个零	00000";
"伍个一	11111";
"伍个七	77777";
"伍个三	33333";
"伍个两	22222";
"伍个九	99999";
"伍个二	22222";
"伍个五	55555";
"伍个伍	55555";
"伍个八	88888";
"伍个六	66666";
"伍个叁	33333";
"伍个四	44444";
"伍个壹	11111";
"伍个幺	11111";
"伍个拐	77777";
"伍个捌	88888";
"伍个柒	77777";
"伍个洞	00000";
"伍个玖	99999";
"伍个肆	44444";
"伍个贰	22222";
"伍个陆	66666";
"伍个零	00000";
"八个一	11111111";
"八个七	77777777";
"八个三	33333333";
"八个两	22222222";
"八个九	99999999";
"八个二	22222222";
"八个五	55555555";
"八个伍	55555555";
"八个八	88888888";
"八个六	66666666";
"八个叁	33333333";
"八个四	44444444";
"八个壹	11111111";
"八个幺	11111111";
"八个拐	77777777";
"八个捌	88888888";
"八个柒	77777777";
"八个洞	00000000";
"八个玖	99999999";
"八个肆	44444444";
"八个贰	22222222";
"八个陆	66666666";
"八个零	00000000";
"六个一	111111";
"六个七	777777";
"六个三	333333";
"六个两	222222";
"六个九	999999";
"六个二	222222";
"六个五	555555";
"六个伍	555555";
"六个八	888888";
"六个六	666666";
"六个叁	333333";
"六个四	444444";
"六个壹	111111";
"六个幺	111111";
"六个拐	777777";
"六个捌	888888";
"六个柒	777777";
"六个洞	000000";
"六个玖	999999";
"六个肆	444444";
"六个贰	222222";
"六个陆	666666";
"六个零	000000";
"叁个一	111";
"叁个七	777";
"叁个三	333";
"叁个两	222";
"叁个九	999";
"叁个二	222";
"叁个五	555";
"叁个伍	555";
"叁个八	888";
"叁个六	666";
"叁个叁	333";
"叁个四	444";
"叁个壹	111";
"叁个幺	111";
"叁个拐	777";
"叁个捌	888";
"叁个柒	777";
"叁个洞	000";
"叁个玖	999";
"叁个肆	444";
"叁个贰	222";
"叁个陆	666";
"叁个零	000";
"四个一	1111";
"四个七	7777";
"四个三	3333";
"四个两	2222";
"四个九	9999";
"四个二	2222";
"四个五	5555";
"四个伍	5555";
"四个八	8888";
"四个六	6666";
"四个叁	3333";
"四个四	4444";
"四个壹	1111";
"四个幺	1111";
"四个拐	7777";
"四个捌	8888";
"四个柒	7777";
"四个洞	0000";
"四个玖	9999";
"四个肆	4444";
"四个贰	2222";
"四个陆	6666";
"四个零	0000";
"捌个一	11111111";
"捌个七	77777777";
"捌个三	33333333";
"捌个两	22222222";
"捌个九	99999999";
"捌个二	22222222";
"捌个五	55555555";
"捌个伍	55555555";
"捌个八	88888888";
"捌个六	66666666";
"捌个叁	33333333";
"捌个四	44444444";
"捌个壹	11111111";
"捌个幺	11111111";
"捌个拐	77777777";
"捌个捌	88888888";
"捌个柒	77777777";
"捌个洞	00000000";
"捌个玖	99999999";
"捌个肆	44444444";
"捌个贰	22222222";
"捌个陆	66666666";
"捌个零	00000000";
"柒个一	1111111";
"柒个七	7777777";
"柒个三	3333333";
"柒个两	2222222";
"柒个九	9999999";
"柒个二	2222222";
"柒个五	5555555";
"柒个伍	5555555";
"柒个八	8888888";
"柒个六	6666666";
"柒个叁	3333333";
"柒个四	4444444";
"柒个壹	1111111";
"柒个幺	1111111";
"柒个拐	7777777";
"柒个捌	8888888";
"柒个柒	7777777";
"柒个洞	0000000";
"柒个玖	9999999";
"柒个肆	4444444";
"柒个贰	2222222";
"柒个陆	6666666";
"柒个零	0000000";
"玖个一	111111111";
"玖个七	777777777";
"玖个三	333333333";
"玖个两	222222222";
"玖个九	999999999";
"玖个二	222222222";
"玖个五	555555555";
"玖个伍	555555555";
"玖个八	888888888";
"玖个六	666666666";
"玖个叁	333333333";
"玖个四	444444444";
"玖个壹	111111111";
"玖个幺	111111111";
"玖个拐	777777777";
"玖个捌	888888888";
"玖个柒	777777777";
"玖个洞	000000000";
"玖个玖	999999999";
"玖个肆	444444444";
"玖个贰	222222222";
"玖个陆	666666666";
"玖个零	000000000";
"肆个一	1111";
"肆个七	7777";
"肆个三	3333";
"肆个两	2222";
"肆个九	9999";
"肆个二	2222";
"肆个五	5555";
"肆个伍	5555";
"肆个八	8888";
"肆个六	6666";
"肆个叁	3333";
"肆个四	4444";
"肆个壹	1111";
"肆个幺	1111";
"肆个拐	7777";
"肆个捌	8888";
"肆个柒	7777";
"肆个洞	0000";
"肆个玖	9999";
"肆个肆	4444";
"肆个贰	2222";
"肆个陆	6666";
"肆个零	0000";
"陆个一	111111";
"陆个七	777777";
"陆个三	333333";
"陆个两	222222";
"陆个九	999999";
"陆个二	222222";
"陆个五	555555";
"陆个伍	555555";
"陆个八	888888";
"陆个六	666666";
"陆个叁	333333";
"陆个四	444444";
"陆个壹	111111";
"陆个幺	111111";
"陆个拐	777777";
"陆个捌	888888";
"陆个柒	777777";
"陆个洞	000000";
"陆个玖	999999";
"陆个肆	444444";
"陆个贰	222222";
"陆个陆	666666";
"陆个零	000000"
].
(** itn/chinese/data/number/sign.tsv *)
Definition zh_itn_number_sign : list string := [
"正	+";
"正负	±";
"负	-";
"负的	-"
].
(** itn/chinese/data/number/special_dash.tsv *)
Definition zh_itn_number_special_dash : list string := [
"一二	1-2";
"二三	2-3";
"三四	3-4";
"三五	3-5";
"四五	4-5";
"五六	5-6";
"六七	6-7";
"七八	7-8";
"八九	8-9";
"一二十	10-20";
"二三十	20-30";
"三四十	30-40";
"三五十	30-50";
"四五十	40-50";
"五六十	50-60";
"六七十	60-70";
"七八十	70-80";
"八九十	80-90";
"一二百	100-200";
"一两百	100-200";
"二三百	200-300";
"两三百	200-300";
"三四百	300-400";
"三五百	300-500";
"四五百	400-500";
"五六百	500-600";
"六七百	600-700";
"七八百	700-800";
"八九百	800-900";
"一二千	1000-2000";
"一两千	1000-2000";
"二三千	2000-3000";
"两三千	2000-3000";
"三四千	3000-4000";
"三五千	3000-5000";
"四五千	4000-5000";
"五六千	5000-6000";
"六七千	6000-7000";
"七八千	7000-8000";
"八九千	8000-9000"
].
(** itn/chinese/data/number/special_tilde.tsv *)
Definition zh_itn_number_special_tilde : list string := [
"一二	1~2";
"二三	2~3";
"三四	3~4";
"三五	3~5";
"四五	4~5";
"五六	5~6";
"六七	6~7";
"七八	7~8";
"八九	8~9";
"一二十	10~20";
"二三十	20~30";
"三四十	30~40";
"三五十	30~50";
"四五十	40~50";
"五六十	50~60";
"六七十	60~70";
"七八十	70~80";
"八九十	80~90";
"一二百	100~200";
"一两百	100~200";
"二三百	200~300";
"两三百	200~300";
"三四百	300~400";
"三五百	300~500";
"四五百	400~500";
"五六百	500~600";
"六七百	600~700";
"七八百	700~800";
"八九百	800~900";
"一二千	1000~2000";
"一两千	1000~2000";
"二三千	2000~3000";
"两三千	2000~3000";
"三四千	3000~4000";
"三五千	3000~5000";
"四五千	4000~5000";
"五六千	5000~6000";
"六七千	6000~7000";
"七八千	7000~8000";
"八九千	8000~9000"
].
(** itn/chinese/data/number/zero.tsv *)
Definition zh_itn_number_zero : list string := [
"零	0";
"洞	0"
].
(** itn/chinese/data/time/hour.tsv *)
Definition zh_itn_time_hour : list string := [
"一点	1";
"两点	2";
"三点	3";
"四点	4";
"五点	5";
"六点	6";
"七点	7";
"八点	8";
"九点	9";
"零点	00";
"一点	01";
"两点	02";
"三点	03";
"四点	04";
"五点	05";
"六点	06";
"七点	07";
"八点	08";
"九点	09";
"十点	10";
"十一点	11";
"十二点	12";
"十三点	13";
"十四点	14";
"十五点	15";
"十六点	16";
"十七点	17";
"十八点	18";
"十九点	19";
"二十点	20";
"二十一点	21";
"二十二点	22";
"二十三点	23";
"二十四点	24"
].
(** itn/chinese/data/time/minute.tsv *)
Definition zh_itn_time_minute : list string := [
"半	30";
"十	10";
"十一	11";
"十二	12";
"十三	13";
"十四	14";
"十五	15";
"十六	16";
"十七	17";
"十八	18";
"十九	19";
"二十	20";
"二十一	21";
"二十二	22";
"二十三	23";
"二十四	24";
"二十五	25";
"二十六	26";
"二十七	27";
"二十八	28";
"二十九	29";
"三十	30";
"三十一	31";
"三十二	32";
"三十三	33";
"三十四	34";
"三十五	35";
"三十六	36";
"三十七	37";
"三十八	38";
"三十九	39";
"四十	40";
"四十一	41";
"四十二	42";
"四十三	43";
"四十四	44";
"四十五	45";
"四十六	46";
"四十七	47";
"四十八	48";
"四十九	49";
"五十	50";
"五十一	51";
"五十二	52";
"五十三	53";
"五十四	54";
"五十五	55";
"五十六	56";
"五十七	57";
"五十八	58";
"五十九	59"
].
(** itn/chinese/data/time/minute_zero.tsv *)
Definition zh_itn_time_minute_zero : list string := [
"零一	01";
"零二	02";
"零三	03";
"零四	04";
"零五	05";
"零六	06";
"零七	07";
"零八	08";
"零九	09"
].
(** itn/chinese/data/time/noon.tsv *)
Definition zh_itn_time_noon : list string := [
"上午	a.m.";
"早上	a.m.";
"早晨	a.m.";
"下午	p.m.";
"晚上	p.m.";
"傍晚	p.m."
].
(** itn/chinese/data/time/second.tsv *)
Definition zh_itn_time_second : list string := [
"	00";
"一秒	01";
"二秒	02";
"三秒	03";
"四秒	04";
"五秒	05";
"六秒	06";
"七秒	07";
"八秒	08";
"九秒	09";
"十秒	10";
"十一秒	11";
"十二秒	12";
"十三秒	13";
"十四秒	14";
"十五秒	15";
"十六秒	16";
"十七秒	17";
"十八秒	18";
"十九秒	19";
"二十秒	20";
"二十一秒	21";
"二十二秒	22";
"二十三秒	23";
"二十四秒	24";
"二十五秒	25";
"二十六秒	26";
"二十七秒	27";
"二十八秒	28";
"二十九秒	29";
"三十秒	30";
"三十一秒	31";
"三十二秒	32";
"三十三秒	33";
"三十四秒	34";
"三十五秒	35";
"三十六秒	36";
"三十七秒	37";
"三十八秒	38";
"三十九秒	39";
"四十秒	40";
"四十一秒	41";
"四十二秒	42";
"四十三秒	43";
"四十四秒	44";
"四十五秒	45";
"四十六秒	46";
"四十七秒	47";
"四十八秒	48";
"四十九秒	49";
"五十秒	50";
"五十一秒	51";
"五十二秒	52";
"五十三秒	53";
"五十四秒	54";
"五十五秒	55";
"五十六秒	56";
"五十七秒	57";
"五十八秒	58";
"五十九秒	59"
].
(** itn/chinese/data/train_number/prefix.tsv *)
Definition zh_itn_train_number_prefix : list string := [
"高	G";
"动	D";
"特	T";
"快	K";
"直	Z";
"慢	L";
"临	L"
].
