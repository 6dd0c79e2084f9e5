(** Generated by tools/gen_data.py from /repo/tn/chinese/data: the lines of each table. *)
From Coq Require Import List String.
Import ListNotations.
Local Open Scope string_scope.
(** tn/chinese/data/cardinal/phone.tsv *)
Definition zh_tn_cardinal_phone : list string := [
"110	幺幺零";
"111	幺幺幺";
"112	幺幺二";
"114	幺幺四";
"119	幺幺九";
"120	幺二零";
"122	幺二二";
"10086	幺零零八六";
"10010	幺零零幺零";
"12306	幺二三零六";
"12315	幺二三幺五";
"12345	幺二三四五";
"12110	幺二幺幺零";
"12320	幺二三二零";
"12366	幺二三六六";
"12333	幺二三三三";
"12328	幺二三二八";
"95110	九五幺幺零";
"95120	九五幺二零";
"95188	九五幺八八";
"95500	九五五零零";
"95511	九五五幺幺";
"95533	九五五三三";
"95555	九五五五五";
"95566	九五五六六";
"95588	九五五八八";
"95598	九五五九八";
"95599	九五五九九"
].
(** tn/chinese/data/char/charset_extension.tsv *)
Definition zh_tn_char_charset_extension : list string := [
"吶";
"囧";
"屄";
"屌";
"诶";
"飚"
].
(** tn/chinese/data/char/charset_national_standard_2013_8105.tsv *)
Definition zh_tn_char_charset_national_standard_2013_8105 : list string := [
"一";
"丁";
"七";
"万";
"丈";
"三";
"上";
"下";
"不";
"与";
"丏";
"丐";
"丑";
"专";
"且";
"丕";
"世";
"丘";
"丙";
"业";
"丛";
"东";
"丝";
"丞";
"丢";
"两";
"严";
"丧";
"个";
"丫";
"中";
"丰";
"串";
"临";
"丸";
"丹";
"为";
"主";
"丽";
"举";
"乂";
"乃";
"久";
"么";
"义";
"之";
"乌";
"乍";
"乎";
"乏";
"乐";
"乒";
"乓";
"乔";
"乖";
"乘";
"乙";
"乜";
"九";
"乞";
"也";
"习";
"乡";
"书";
"乩";
"买";
"乱";
"乳";
"乸";
"乾";
"了";
"予";
"争";
"事";
"二";
"亍";
"于";
"亏";
"云";
"互";
"亓";
"五";
"井";
"亘";
"亚";
"些";
"亟";
"亡";
"亢";
"交";
"亥";
"亦";
"产";
"亨";
"亩";
"享";
"京";
"亭";
"亮";
"亲";
"亳";
"亵";
"亶";
"亸";
"亹";
"人";
"亿";
"什";
"仁";
"仂";
"仃";
"仄";
"仅";
"仆";
"仇";
"仉";
"今";
"介";
"仍";
"从";
"仑";
"仓";
"仔";
"仕";
"他";
"仗";
"付";
"仙";
"仝";
"仞";
"仟";
"仡";
"代";
"令";
"以";
"仨";
"仪";
"仫";
"们";
"仰";
"仲";
"仳";
"仵";
"件";
"价";
"任";
"份";
"仿";
"企";
"伈";
"伉";
"伊";
"伋";
"伍";
"伎";
"伏";
"伐";
"休";
"众";
"优";
"伙";
"会";
"伛";
"伞";
"伟";
"传";
"伢";
"伣";
"伤";
"伥";
"伦";
"伧";
"伪";
"伫";
"伭";
"伯";
"估";
"伲";
"伴";
"伶";
"伸";
"伺";
"似";
"伽";
"伾";
"佁";
"佃";
"但";
"位";
"低";
"住";
"佐";
"佑";
"体";
"何";
"佖";
"佗";
"佘";
"余";
"佚";
"佛";
"作";
"佝";
"佞";
"佟";
"你";
"佣";
"佤";
"佥";
"佩";
"佬";
"佯";
"佰";
"佳";
"佴";
"佶";
"佸";
"佺";
"佻";
"佼";
"佽";
"佾";
"使";
"侁";
"侂";
"侃";
"侄";
"侈";
"侉";
"例";
"侍";
"侏";
"侑";
"侔";
"侗";
"侘";
"供";
"依";
"侠";
"侣";
"侥";
"侦";
"侧";
"侨";
"侩";
"侪";
"侬";
"侮";
"侯";
"侴";
"侵";
"侹";
"便";
"促";
"俄";
"俅";
"俊";
"俍";
"俎";
"俏";
"俐";
"俑";
"俗";
"俘";
"俙";
"俚";
"俜";
"保";
"俞";
"俟";
"信";
"俣";
"俦";
"俨";
"俩";
"俪";
"俫";
"俭";
"修";
"俯";
"俱";
"俳";
"俵";
"俶";
"俸";
"俺";
"俾";
"倌";
"倍";
"倏";
"倒";
"倓";
"倔";
"倕";
"倘";
"候";
"倚";
"倜";
"倞";
"借";
"倡";
"倥";
"倦";
"倧";
"倨";
"倩";
"倪";
"倬";
"倭";
"倮";
"倴";
"债";
"倻";
"值";
"倾";
"偁";
"偃";
"假";
"偈";
"偌";
"偎";
"偏";
"偓";
"偕";
"做";
"停";
"偡";
"健";
"偬";
"偭";
"偰";
"偲";
"偶";
"偷";
"偻";
"偾";
"偿";
"傀";
"傃";
"傅";
"傈";
"傉";
"傍";
"傒";
"傕";
"傣";
"傥";
"傧";
"储";
"傩";
"催";
"傲";
"傺";
"傻";
"僇";
"僎";
"像";
"僔";
"僖";
"僚";
"僦";
"僧";
"僬";
"僭";
"僮";
"僰";
"僳";
"僵";
"僻";
"儆";
"儇";
"儋";
"儒";
"儡";
"儦";
"儳";
"儴";
"儿";
"兀";
"允";
"元";
"兄";
"充";
"兆";
"先";
"光";
"克";
"免";
"兑";
"兔";
"兕";
"兖";
"党";
"兜";
"兢";
"入";
"全";
"八";
"公";
"六";
"兮";
"兰";
"共";
"关";
"兴";
"兵";
"其";
"具";
"典";
"兹";
"养";
"兼";
"兽";
"冀";
"冁";
"内";
"冈";
"冉";
"册";
"再";
"冏";
"冒";
"冔";
"冕";
"冗";
"写";
"军";
"农";
"冠";
"冢";
"冤";
"冥";
"冬";
"冮";
"冯";
"冰";
"冱";
"冲";
"决";
"况";
"冶";
"冷";
"冻";
"冼";
"冽";
"净";
"凄";
"准";
"凇";
"凉";
"凋";
"凌";
"减";
"凑";
"凓";
"凘";
"凛";
"凝";
"几";
"凡";
"凤";
"凫";
"凭";
"凯";
"凰";
"凳";
"凶";
"凸";
"凹";
"出";
"击";
"凼";
"函";
"凿";
"刀";
"刁";
"刃";
"分";
"切";
"刈";
"刊";
"刍";
"刎";
"刑";
"划";
"刖";
"列";
"刘";
"则";
"刚";
"创";
"初";
"删";
"判";
"刨";
"利";
"别";
"刬";
"刭";
"刮";
"到";
"刳";
"制";
"刷";
"券";
"刹";
"刺";
"刻";
"刽";
"刿";
"剀";
"剁";
"剂";
"剃";
"剅";
"削";
"剋";
"剌";
"前";
"剐";
"剑";
"剔";
"剕";
"剖";
"剜";
"剞";
"剟";
"剡";
"剥";
"剧";
"剩";
"剪";
"副";
"割";
"剽";
"剿";
"劁";
"劂";
"劄";
"劈";
"劐";
"劓";
"力";
"劝";
"办";
"功";
"加";
"务";
"劢";
"劣";
"动";
"助";
"努";
"劫";
"劬";
"劭";
"励";
"劲";
"劳";
"劼";
"劾";
"势";
"勃";
"勇";
"勉";
"勋";
"勍";
"勐";
"勒";
"勔";
"勖";
"勘";
"勚";
"募";
"勠";
"勤";
"勰";
"勺";
"勾";
"勿";
"匀";
"包";
"匆";
"匈";
"匍";
"匏";
"匐";
"匕";
"化";
"北";
"匙";
"匜";
"匝";
"匠";
"匡";
"匣";
"匦";
"匪";
"匮";
"匹";
"区";
"医";
"匼";
"匾";
"匿";
"十";
"千";
"卅";
"升";
"午";
"卉";
"半";
"华";
"协";
"卑";
"卒";
"卓";
"单";
"卖";
"南";
"博";
"卜";
"卞";
"卟";
"占";
"卡";
"卢";
"卣";
"卤";
"卦";
"卧";
"卫";
"卬";
"卮";
"卯";
"印";
"危";
"即";
"却";
"卵";
"卷";
"卸";
"卺";
"卿";
"厂";
"厄";
"厅";
"历";
"厉";
"压";
"厌";
"厍";
"厕";
"厖";
"厘";
"厚";
"厝";
"原";
"厢";
"厣";
"厥";
"厦";
"厨";
"厩";
"厮";
"去";
"厾";
"县";
"叁";
"参";
"叆";
"叇";
"又";
"叉";
"及";
"友";
"双";
"反";
"发";
"叔";
"叕";
"取";
"受";
"变";
"叙";
"叚";
"叛";
"叟";
"叠";
"口";
"古";
"句";
"另";
"叨";
"叩";
"只";
"叫";
"召";
"叭";
"叮";
"可";
"台";
"叱";
"史";
"右";
"叵";
"叶";
"号";
"司";
"叹";
"叻";
"叼";
"叽";
"吁";
"吃";
"各";
"吆";
"合";
"吉";
"吊";
"同";
"名";
"后";
"吏";
"吐";
"向";
"吒";
"吓";
"吕";
"吖";
"吗";
"君";
"吝";
"吞";
"吟";
"吠";
"吡";
"吣";
"否";
"吧";
"吨";
"吩";
"含";
"听";
"吭";
"吮";
"启";
"吱";
"吲";
"吴";
"吵";
"吸";
"吹";
"吻";
"吼";
"吽";
"吾";
"呀";
"呃";
"呆";
"呇";
"呈";
"告";
"呋";
"呐";
"呒";
"呓";
"呔";
"呕";
"呖";
"呗";
"员";
"呙";
"呛";
"呜";
"呢";
"呣";
"呤";
"呦";
"周";
"呱";
"呲";
"味";
"呵";
"呶";
"呷";
"呸";
"呻";
"呼";
"命";
"咀";
"咂";
"咄";
"咆";
"咇";
"咉";
"咋";
"和";
"咍";
"咎";
"咏";
"咐";
"咒";
"咔";
"咕";
"咖";
"咙";
"咚";
"咛";
"咝";
"咡";
"咣";
"咤";
"咥";
"咦";
"咧";
"咨";
"咩";
"咪";
"咫";
"咬";
"咯";
"咱";
"咳";
"咴";
"咸";
"咺";
"咻";
"咽";
"咿";
"哀";
"品";
"哂";
"哃";
"哄";
"哆";
"哇";
"哈";
"哉";
"哌";
"响";
"哎";
"哏";
"哐";
"哑";
"哒";
"哓";
"哔";
"哕";
"哗";
"哙";
"哚";
"哝";
"哞";
"哟";
"哢";
"哥";
"哦";
"哧";
"哨";
"哩";
"哪";
"哭";
"哮";
"哱";
"哲";
"哳";
"哺";
"哼";
"哽";
"哿";
"唁";
"唆";
"唇";
"唉";
"唏";
"唐";
"唑";
"唔";
"唛";
"唝";
"唠";
"唢";
"唣";
"唤";
"唧";
"唪";
"唬";
"售";
"唯";
"唰";
"唱";
"唳";
"唵";
"唷";
"唼";
"唾";
"唿";
"啁";
"啃";
"啄";
"商";
"啉";
"啊";
"啐";
"啕";
"啖";
"啜";
"啡";
"啤";
"啥";
"啦";
"啧";
"啪";
"啫";
"啬";
"啭";
"啮";
"啰";
"啴";
"啵";
"啶";
"啷";
"啸";
"啻";
"啼";
"啾";
"喀";
"喁";
"喂";
"喃";
"善";
"喆";
"喇";
"喈";
"喉";
"喊";
"喋";
"喏";
"喑";
"喔";
"喘";
"喙";
"喜";
"喝";
"喟";
"喤";
"喧";
"喱";
"喳";
"喵";
"喷";
"喹";
"喻";
"喽";
"喾";
"嗄";
"嗅";
"嗉";
"嗌";
"嗍";
"嗐";
"嗑";
"嗒";
"嗓";
"嗔";
"嗖";
"嗜";
"嗝";
"嗞";
"嗟";
"嗡";
"嗣";
"嗤";
"嗥";
"嗦";
"嗨";
"嗪";
"嗫";
"嗬";
"嗯";
"嗲";
"嗳";
"嗵";
"嗷";
"嗽";
"嗾";
"嘀";
"嘁";
"嘈";
"嘉";
"嘌";
"嘎";
"嘏";
"嘘";
"嘚";
"嘛";
"嘞";
"嘟";
"嘡";
"嘣";
"嘤";
"嘧";
"嘬";
"嘭";
"嘱";
"嘲";
"嘴";
"嘶";
"嘹";
"嘻";
"嘿";
"噀";
"噂";
"噇";
"噌";
"噍";
"噎";
"噔";
"噗";
"噘";
"噙";
"噜";
"噢";
"噤";
"器";
"噩";
"噪";
"噫";
"噬";
"噱";
"噶";
"噻";
"噼";
"嚄";
"嚅";
"嚆";
"嚎";
"嚏";
"嚓";
"嚚";
"嚣";
"嚭";
"嚯";
"嚷";
"嚼";
"囊";
"囔";
"囚";
"四";
"回";
"囟";
"因";
"囡";
"团";
"囤";
"囫";
"园";
"困";
"囱";
"围";
"囵";
"囷";
"囹";
"固";
"国";
"图";
"囿";
"圃";
"圄";
"圆";
"圈";
"圉";
"圊";
"圌";
"圐";
"圙";
"圜";
"土";
"圢";
"圣";
"在";
"圩";
"圪";
"圫";
"圬";
"圭";
"圮";
"圯";
"地";
"圲";
"圳";
"圹";
"场";
"圻";
"圾";
"址";
"坂";
"均";
"坉";
"坊";
"坋";
"坌";
"坍";
"坎";
"坏";
"坐";
"坑";
"坒";
"块";
"坚";
"坛";
"坜";
"坝";
"坞";
"坟";
"坠";
"坡";
"坤";
"坥";
"坦";
"坨";
"坩";
"坪";
"坫";
"坬";
"坭";
"坯";
"坰";
"坳";
"坷";
"坻";
"坼";
"坽";
"垂";
"垃";
"垄";
"垆";
"垈";
"型";
"垌";
"垍";
"垎";
"垏";
"垒";
"垓";
"垕";
"垙";
"垚";
"垛";
"垞";
"垟";
"垠";
"垡";
"垢";
"垣";
"垤";
"垦";
"垧";
"垩";
"垫";
"垭";
"垮";
"垯";
"垱";
"垲";
"垴";
"垵";
"垸";
"垺";
"垾";
"垿";
"埂";
"埃";
"埆";
"埇";
"埋";
"埌";
"城";
"埏";
"埒";
"埔";
"埕";
"埗";
"埘";
"埙";
"埚";
"埝";
"域";
"埠";
"埤";
"埪";
"埫";
"埭";
"埯";
"埴";
"埵";
"埸";
"培";
"基";
"埼";
"埽";
"堂";
"堃";
"堆";
"堇";
"堉";
"堋";
"堌";
"堍";
"堎";
"堐";
"堑";
"堕";
"堙";
"堞";
"堠";
"堡";
"堤";
"堧";
"堨";
"堪";
"堰";
"堲";
"堵";
"堼";
"堽";
"堾";
"塄";
"塅";
"塆";
"塌";
"塍";
"塑";
"塔";
"塘";
"塝";
"塞";
"塥";
"填";
"塬";
"塱";
"塾";
"墀";
"墁";
"境";
"墅";
"墈";
"墉";
"墐";
"墒";
"墓";
"墕";
"墘";
"墙";
"墚";
"增";
"墟";
"墡";
"墣";
"墦";
"墨";
"墩";
"墼";
"壁";
"壅";
"壑";
"壕";
"壤";
"士";
"壬";
"壮";
"声";
"壳";
"壶";
"壸";
"壹";
"处";
"备";
"复";
"夏";
"夐";
"夔";
"夕";
"外";
"夙";
"多";
"夜";
"够";
"夤";
"夥";
"大";
"天";
"太";
"夫";
"夬";
"夭";
"央";
"夯";
"失";
"头";
"夷";
"夸";
"夹";
"夺";
"夼";
"奁";
"奂";
"奄";
"奇";
"奈";
"奉";
"奋";
"奎";
"奏";
"契";
"奓";
"奔";
"奕";
"奖";
"套";
"奘";
"奚";
"奠";
"奡";
"奢";
"奥";
"奭";
"女";
"奴";
"奶";
"奸";
"她";
"好";
"妁";
"如";
"妃";
"妄";
"妆";
"妇";
"妈";
"妊";
"妍";
"妒";
"妓";
"妖";
"妗";
"妘";
"妙";
"妞";
"妣";
"妤";
"妥";
"妧";
"妨";
"妩";
"妪";
"妫";
"妭";
"妮";
"妯";
"妲";
"妹";
"妻";
"妾";
"姆";
"姈";
"姊";
"始";
"姐";
"姑";
"姒";
"姓";
"委";
"姗";
"姘";
"姚";
"姜";
"姝";
"姞";
"姣";
"姤";
"姥";
"姨";
"姬";
"姮";
"姱";
"姶";
"姹";
"姻";
"姽";
"姿";
"娀";
"威";
"娃";
"娄";
"娅";
"娆";
"娇";
"娈";
"娉";
"娌";
"娑";
"娓";
"娘";
"娜";
"娟";
"娠";
"娣";
"娥";
"娩";
"娱";
"娲";
"娴";
"娵";
"娶";
"娼";
"婀";
"婆";
"婉";
"婊";
"婌";
"婍";
"婕";
"婘";
"婚";
"婞";
"婠";
"婢";
"婤";
"婧";
"婪";
"婫";
"婳";
"婴";
"婵";
"婶";
"婷";
"婺";
"婻";
"婼";
"婿";
"媂";
"媄";
"媆";
"媒";
"媓";
"媖";
"媚";
"媛";
"媞";
"媪";
"媭";
"媱";
"媲";
"媳";
"媵";
"媸";
"媾";
"嫁";
"嫂";
"嫄";
"嫉";
"嫌";
"嫒";
"嫔";
"嫕";
"嫖";
"嫘";
"嫚";
"嫜";
"嫠";
"嫡";
"嫣";
"嫦";
"嫩";
"嫪";
"嫫";
"嫭";
"嫱";
"嫽";
"嬉";
"嬖";
"嬗";
"嬛";
"嬥";
"嬬";
"嬴";
"嬷";
"嬿";
"孀";
"孅";
"子";
"孑";
"孓";
"孔";
"孕";
"孖";
"字";
"存";
"孙";
"孚";
"孛";
"孜";
"孝";
"孟";
"孢";
"季";
"孤";
"孥";
"学";
"孩";
"孪";
"孬";
"孰";
"孱";
"孳";
"孵";
"孺";
"孽";
"宁";
"它";
"宄";
"宅";
"宇";
"守";
"安";
"宋";
"完";
"宏";
"宓";
"宕";
"宗";
"官";
"宙";
"定";
"宛";
"宜";
"宝";
"实";
"宠";
"审";
"客";
"宣";
"室";
"宥";
"宦";
"宧";
"宪";
"宫";
"宬";
"宰";
"害";
"宴";
"宵";
"家";
"宸";
"容";
"宽";
"宾";
"宿";
"寁";
"寂";
"寄";
"寅";
"密";
"寇";
"富";
"寐";
"寒";
"寓";
"寝";
"寞";
"察";
"寡";
"寤";
"寥";
"寨";
"寮";
"寰";
"寸";
"对";
"寺";
"寻";
"导";
"寿";
"封";
"射";
"将";
"尉";
"尊";
"小";
"少";
"尔";
"尕";
"尖";
"尘";
"尚";
"尜";
"尝";
"尢";
"尤";
"尥";
"尧";
"尨";
"尪";
"尬";
"就";
"尴";
"尸";
"尹";
"尺";
"尻";
"尼";
"尽";
"尾";
"尿";
"局";
"屁";
"层";
"屃";
"居";
"屈";
"屉";
"届";
"屋";
"屎";
"屏";
"屐";
"屑";
"展";
"屙";
"属";
"屠";
"屡";
"屣";
"履";
"屦";
"屯";
"山";
"屹";
"屺";
"屼";
"屾";
"屿";
"岁";
"岂";
"岈";
"岊";
"岌";
"岍";
"岐";
"岑";
"岔";
"岖";
"岗";
"岘";
"岙";
"岚";
"岛";
"岜";
"岞";
"岠";
"岢";
"岣";
"岨";
"岩";
"岫";
"岬";
"岭";
"岱";
"岳";
"岵";
"岷";
"岸";
"岽";
"岿";
"峁";
"峂";
"峃";
"峄";
"峋";
"峒";
"峗";
"峘";
"峙";
"峛";
"峡";
"峣";
"峤";
"峥";
"峦";
"峧";
"峨";
"峪";
"峭";
"峰";
"峱";
"峻";
"峿";
"崀";
"崁";
"崂";
"崃";
"崄";
"崆";
"崇";
"崌";
"崎";
"崒";
"崔";
"崖";
"崚";
"崛";
"崞";
"崟";
"崡";
"崤";
"崦";
"崧";
"崩";
"崭";
"崮";
"崴";
"崶";
"崽";
"崾";
"崿";
"嵁";
"嵅";
"嵇";
"嵊";
"嵋";
"嵌";
"嵎";
"嵖";
"嵘";
"嵚";
"嵛";
"嵝";
"嵩";
"嵫";
"嵬";
"嵯";
"嵲";
"嵴";
"嶂";
"嶅";
"嶍";
"嶒";
"嶓";
"嶙";
"嶝";
"嶟";
"嶦";
"嶲";
"嶷";
"巅";
"巇";
"巉";
"巍";
"川";
"州";
"巡";
"巢";
"工";
"左";
"巧";
"巨";
"巩";
"巫";
"差";
"巯";
"己";
"已";
"巳";
"巴";
"巷";
"巽";
"巾";
"币";
"市";
"布";
"帅";
"帆";
"师";
"希";
"帏";
"帐";
"帑";
"帔";
"帕";
"帖";
"帘";
"帙";
"帚";
"帛";
"帜";
"帝";
"帡";
"带";
"帧";
"帨";
"席";
"帮";
"帱";
"帷";
"常";
"帻";
"帼";
"帽";
"幂";
"幄";
"幅";
"幌";
"幔";
"幕";
"幖";
"幛";
"幞";
"幡";
"幢";
"幪";
"干";
"平";
"年";
"并";
"幸";
"幺";
"幻";
"幼";
"幽";
"广";
"庄";
"庆";
"庇";
"床";
"庋";
"序";
"庐";
"庑";
"库";
"应";
"底";
"庖";
"店";
"庙";
"庚";
"府";
"庞";
"废";
"庠";
"庤";
"庥";
"度";
"座";
"庭";
"庱";
"庳";
"庵";
"庶";
"康";
"庸";
"庹";
"庼";
"庾";
"廆";
"廉";
"廊";
"廋";
"廑";
"廒";
"廓";
"廖";
"廙";
"廛";
"廨";
"廪";
"延";
"廷";
"建";
"廿";
"开";
"弁";
"异";
"弃";
"弄";
"弆";
"弇";
"弈";
"弊";
"弋";
"式";
"弑";
"弓";
"引";
"弗";
"弘";
"弛";
"弟";
"张";
"弢";
"弥";
"弦";
"弧";
"弨";
"弩";
"弭";
"弯";
"弱";
"弶";
"弸";
"弹";
"强";
"弼";
"彀";
"归";
"当";
"录";
"彖";
"彗";
"彘";
"彝";
"彟";
"形";
"彤";
"彦";
"彧";
"彩";
"彪";
"彬";
"彭";
"彰";
"影";
"彳";
"彷";
"役";
"彻";
"彼";
"往";
"征";
"徂";
"径";
"待";
"徇";
"很";
"徉";
"徊";
"律";
"徐";
"徒";
"徕";
"得";
"徘";
"徙";
"徛";
"徜";
"御";
"徨";
"循";
"徭";
"微";
"徵";
"德";
"徼";
"徽";
"心";
"必";
"忆";
"忉";
"忌";
"忍";
"忏";
"忐";
"忑";
"忒";
"忖";
"志";
"忘";
"忙";
"忝";
"忞";
"忠";
"忡";
"忤";
"忧";
"忪";
"快";
"忭";
"忮";
"忱";
"忳";
"念";
"忸";
"忺";
"忻";
"忽";
"忾";
"忿";
"怀";
"态";
"怂";
"怃";
"怄";
"怅";
"怆";
"怊";
"怍";
"怎";
"怏";
"怒";
"怔";
"怕";
"怖";
"怙";
"怛";
"怜";
"思";
"怠";
"怡";
"急";
"怦";
"性";
"怨";
"怩";
"怪";
"怫";
"怯";
"怵";
"总";
"怼";
"怿";
"恁";
"恂";
"恃";
"恋";
"恍";
"恐";
"恒";
"恓";
"恔";
"恕";
"恙";
"恚";
"恝";
"恢";
"恣";
"恤";
"恧";
"恨";
"恩";
"恪";
"恫";
"恬";
"恭";
"息";
"恰";
"恳";
"恶";
"恸";
"恹";
"恺";
"恻";
"恼";
"恽";
"恿";
"悃";
"悄";
"悆";
"悈";
"悉";
"悌";
"悍";
"悒";
"悔";
"悖";
"悚";
"悛";
"悝";
"悟";
"悠";
"悢";
"患";
"悦";
"您";
"悫";
"悬";
"悭";
"悯";
"悰";
"悱";
"悲";
"悴";
"悸";
"悻";
"悼";
"情";
"惆";
"惇";
"惊";
"惋";
"惎";
"惑";
"惔";
"惕";
"惘";
"惙";
"惚";
"惛";
"惜";
"惝";
"惟";
"惠";
"惦";
"惧";
"惨";
"惩";
"惫";
"惬";
"惭";
"惮";
"惯";
"惰";
"想";
"惴";
"惶";
"惹";
"惺";
"愀";
"愁";
"愃";
"愆";
"愈";
"愉";
"愍";
"愎";
"意";
"愐";
"愔";
"愕";
"愚";
"感";
"愠";
"愣";
"愤";
"愦";
"愧";
"愫";
"愭";
"愿";
"慆";
"慈";
"慊";
"慌";
"慎";
"慑";
"慕";
"慝";
"慢";
"慥";
"慧";
"慨";
"慬";
"慭";
"慰";
"慵";
"慷";
"憋";
"憎";
"憔";
"憕";
"憙";
"憧";
"憨";
"憩";
"憬";
"憭";
"憷";
"憺";
"憾";
"懂";
"懈";
"懊";
"懋";
"懑";
"懒";
"懔";
"懦";
"懵";
"懿";
"戆";
"戈";
"戊";
"戋";
"戌";
"戍";
"戎";
"戏";
"成";
"我";
"戒";
"戕";
"或";
"戗";
"战";
"戚";
"戛";
"戟";
"戡";
"戢";
"戣";
"戤";
"戥";
"截";
"戬";
"戭";
"戮";
"戳";
"戴";
"户";
"戽";
"戾";
"房";
"所";
"扁";
"扂";
"扃";
"扅";
"扆";
"扇";
"扈";
"扉";
"扊";
"手";
"才";
"扎";
"扑";
"扒";
"打";
"扔";
"托";
"扛";
"扞";
"扣";
"扦";
"执";
"扩";
"扪";
"扫";
"扬";
"扭";
"扮";
"扯";
"扰";
"扳";
"扶";
"批";
"扺";
"扼";
"扽";
"找";
"承";
"技";
"抃";
"抄";
"抉";
"把";
"抑";
"抒";
"抓";
"抔";
"投";
"抖";
"抗";
"折";
"抚";
"抛";
"抟";
"抠";
"抡";
"抢";
"护";
"报";
"抨";
"披";
"抬";
"抱";
"抵";
"抹";
"抻";
"押";
"抽";
"抿";
"拂";
"拃";
"拄";
"担";
"拆";
"拇";
"拈";
"拉";
"拊";
"拌";
"拍";
"拎";
"拐";
"拒";
"拓";
"拔";
"拖";
"拗";
"拘";
"拙";
"招";
"拜";
"拟";
"拢";
"拣";
"拤";
"拥";
"拦";
"拧";
"拨";
"择";
"括";
"拭";
"拮";
"拯";
"拱";
"拳";
"拴";
"拶";
"拷";
"拼";
"拽";
"拾";
"拿";
"持";
"挂";
"指";
"挈";
"按";
"挎";
"挑";
"挓";
"挖";
"挚";
"挛";
"挝";
"挞";
"挟";
"挠";
"挡";
"挣";
"挤";
"挥";
"挦";
"挨";
"挪";
"挫";
"振";
"挲";
"挹";
"挺";
"挽";
"捂";
"捃";
"捅";
"捆";
"捉";
"捋";
"捌";
"捍";
"捎";
"捏";
"捐";
"捕";
"捞";
"损";
"捡";
"换";
"捣";
"捧";
"捩";
"捭";
"据";
"捯";
"捶";
"捷";
"捺";
"捻";
"捽";
"掀";
"掂";
"掇";
"授";
"掉";
"掊";
"掌";
"掎";
"掏";
"掐";
"排";
"掖";
"掘";
"掞";
"掠";
"探";
"掣";
"接";
"控";
"推";
"掩";
"措";
"掬";
"掭";
"掮";
"掰";
"掳";
"掴";
"掷";
"掸";
"掺";
"掼";
"掾";
"揄";
"揆";
"揉";
"揍";
"描";
"提";
"插";
"揕";
"揖";
"揠";
"握";
"揣";
"揩";
"揪";
"揭";
"揳";
"援";
"揶";
"揸";
"揽";
"揿";
"搀";
"搁";
"搂";
"搅";
"搋";
"搌";
"搏";
"搐";
"搒";
"搓";
"搔";
"搛";
"搜";
"搞";
"搠";
"搡";
"搦";
"搪";
"搬";
"搭";
"搴";
"携";
"搽";
"摁";
"摄";
"摅";
"摆";
"摇";
"摈";
"摊";
"摏";
"摒";
"摔";
"摘";
"摛";
"摞";
"摧";
"摩";
"摭";
"摴";
"摸";
"摹";
"摽";
"撂";
"撄";
"撅";
"撇";
"撑";
"撒";
"撕";
"撖";
"撙";
"撞";
"撤";
"撩";
"撬";
"播";
"撮";
"撰";
"撵";
"撷";
"撸";
"撺";
"撼";
"擀";
"擂";
"擅";
"操";
"擎";
"擐";
"擒";
"擘";
"擞";
"擢";
"擤";
"擦";
"擿";
"攀";
"攉";
"攒";
"攘";
"攥";
"攫";
"攮";
"支";
"收";
"攸";
"改";
"攻";
"攽";
"放";
"政";
"故";
"效";
"敉";
"敌";
"敏";
"救";
"敔";
"敕";
"敖";
"教";
"敛";
"敝";
"敞";
"敢";
"散";
"敦";
"敩";
"敫";
"敬";
"数";
"敲";
"整";
"敷";
"文";
"斋";
"斌";
"斐";
"斑";
"斓";
"斗";
"料";
"斛";
"斜";
"斝";
"斟";
"斠";
"斡";
"斤";
"斥";
"斧";
"斩";
"斫";
"断";
"斯";
"新";
"斶";
"方";
"於";
"施";
"旁";
"旃";
"旄";
"旅";
"旆";
"旋";
"旌";
"旎";
"族";
"旐";
"旒";
"旖";
"旗";
"旞";
"无";
"既";
"日";
"旦";
"旧";
"旨";
"早";
"旬";
"旭";
"旮";
"旯";
"旰";
"旱";
"旴";
"旵";
"时";
"旷";
"旸";
"旺";
"旻";
"旿";
"昀";
"昂";
"昃";
"昄";
"昆";
"昇";
"昈";
"昉";
"昊";
"昌";
"明";
"昏";
"昒";
"易";
"昔";
"昕";
"昙";
"昝";
"星";
"映";
"昡";
"昣";
"昤";
"春";
"昧";
"昨";
"昪";
"昫";
"昭";
"是";
"昱";
"昳";
"昴";
"昵";
"昶";
"昺";
"昼";
"昽";
"显";
"晁";
"晃";
"晅";
"晊";
"晋";
"晌";
"晏";
"晐";
"晒";
"晓";
"晔";
"晕";
"晖";
"晗";
"晙";
"晚";
"晞";
"晟";
"晡";
"晢";
"晤";
"晦";
"晨";
"晪";
"晫";
"普";
"景";
"晰";
"晱";
"晴";
"晶";
"晷";
"智";
"晾";
"暂";
"暄";
"暅";
"暇";
"暌";
"暑";
"暕";
"暖";
"暗";
"暝";
"暧";
"暨";
"暮";
"暲";
"暴";
"暵";
"暶";
"暹";
"暾";
"暿";
"曈";
"曌";
"曙";
"曛";
"曜";
"曝";
"曦";
"曩";
"曰";
"曲";
"曳";
"更";
"曷";
"曹";
"曼";
"曾";
"替";
"最";
"月";
"有";
"朋";
"服";
"朏";
"朐";
"朓";
"朔";
"朕";
"朗";
"望";
"朝";
"期";
"朦";
"木";
"未";
"末";
"本";
"札";
"术";
"朱";
"朳";
"朴";
"朵";
"朸";
"机";
"朽";
"杀";
"杂";
"权";
"杄";
"杆";
"杈";
"杉";
"杌";
"李";
"杏";
"材";
"村";
"杓";
"杕";
"杖";
"杙";
"杜";
"杞";
"束";
"杠";
"条";
"来";
"杧";
"杨";
"杩";
"杪";
"杭";
"杯";
"杰";
"杲";
"杳";
"杵";
"杷";
"杻";
"杼";
"松";
"板";
"极";
"构";
"枅";
"枇";
"枉";
"枋";
"枍";
"析";
"枕";
"林";
"枘";
"枚";
"果";
"枝";
"枞";
"枢";
"枣";
"枥";
"枧";
"枨";
"枪";
"枫";
"枭";
"枯";
"枰";
"枲";
"枳";
"枵";
"架";
"枷";
"枸";
"枹";
"柁";
"柃";
"柄";
"柈";
"柊";
"柏";
"某";
"柑";
"柒";
"染";
"柔";
"柖";
"柘";
"柙";
"柚";
"柜";
"柝";
"柞";
"柠";
"柢";
"查";
"柩";
"柬";
"柯";
"柰";
"柱";
"柳";
"柴";
"柷";
"柽";
"柿";
"栀";
"栅";
"标";
"栈";
"栉";
"栊";
"栋";
"栌";
"栎";
"栏";
"栐";
"树";
"栒";
"栓";
"栖";
"栗";
"栝";
"栟";
"校";
"栩";
"株";
"栲";
"栳";
"栴";
"样";
"核";
"根";
"栻";
"格";
"栽";
"栾";
"桀";
"桁";
"桂";
"桃";
"桄";
"桅";
"框";
"案";
"桉";
"桊";
"桌";
"桎";
"桐";
"桑";
"桓";
"桔";
"桕";
"桠";
"桡";
"桢";
"档";
"桤";
"桥";
"桦";
"桧";
"桨";
"桩";
"桫";
"桯";
"桲";
"桴";
"桶";
"桷";
"桹";
"梁";
"梃";
"梅";
"梆";
"梌";
"梏";
"梓";
"梗";
"梠";
"梢";
"梣";
"梦";
"梧";
"梨";
"梭";
"梯";
"械";
"梳";
"梴";
"梵";
"梼";
"梽";
"梾";
"梿";
"检";
"棁";
"棂";
"棉";
"棋";
"棍";
"棐";
"棒";
"棓";
"棕";
"棘";
"棚";
"棠";
"棣";
"棤";
"棨";
"棪";
"棫";
"棬";
"森";
"棰";
"棱";
"棵";
"棹";
"棺";
"棻";
"棼";
"棽";
"椀";
"椁";
"椅";
"椆";
"椋";
"植";
"椎";
"椐";
"椑";
"椒";
"椓";
"椟";
"椠";
"椤";
"椪";
"椭";
"椰";
"椴";
"椸";
"椹";
"椽";
"椿";
"楂";
"楒";
"楔";
"楗";
"楙";
"楚";
"楝";
"楞";
"楠";
"楣";
"楦";
"楩";
"楪";
"楫";
"楮";
"楯";
"楷";
"楸";
"楹";
"楼";
"概";
"榃";
"榄";
"榅";
"榆";
"榇";
"榈";
"榉";
"榍";
"榑";
"榔";
"榕";
"榖";
"榛";
"榜";
"榧";
"榨";
"榫";
"榭";
"榰";
"榱";
"榴";
"榷";
"榻";
"槁";
"槃";
"槊";
"槌";
"槎";
"槐";
"槔";
"槚";
"槛";
"槜";
"槟";
"槠";
"槭";
"槱";
"槲";
"槽";
"槿";
"樊";
"樗";
"樘";
"樟";
"模";
"樨";
"横";
"樯";
"樱";
"樵";
"樽";
"樾";
"橄";
"橇";
"橐";
"橑";
"橘";
"橙";
"橛";
"橞";
"橡";
"橥";
"橦";
"橱";
"橹";
"橼";
"檀";
"檄";
"檎";
"檐";
"檑";
"檗";
"檞";
"檠";
"檩";
"檫";
"檬";
"櫆";
"欂";
"欠";
"次";
"欢";
"欣";
"欤";
"欧";
"欲";
"欸";
"欹";
"欺";
"欻";
"款";
"歃";
"歅";
"歆";
"歇";
"歉";
"歌";
"歙";
"止";
"正";
"此";
"步";
"武";
"歧";
"歪";
"歹";
"死";
"歼";
"殁";
"殂";
"殃";
"殄";
"殆";
"殇";
"殉";
"殊";
"残";
"殍";
"殒";
"殓";
"殖";
"殚";
"殛";
"殡";
"殣";
"殪";
"殳";
"殴";
"段";
"殷";
"殿";
"毁";
"毂";
"毅";
"毋";
"毌";
"母";
"每";
"毐";
"毒";
"毓";
"比";
"毕";
"毖";
"毗";
"毙";
"毛";
"毡";
"毪";
"毫";
"毯";
"毳";
"毵";
"毹";
"毽";
"氅";
"氆";
"氇";
"氍";
"氏";
"氐";
"民";
"氓";
"气";
"氕";
"氖";
"氘";
"氙";
"氚";
"氛";
"氟";
"氡";
"氢";
"氤";
"氦";
"氧";
"氨";
"氩";
"氪";
"氮";
"氯";
"氰";
"氲";
"水";
"永";
"氾";
"氿";
"汀";
"汁";
"求";
"汆";
"汇";
"汈";
"汉";
"汊";
"汋";
"汐";
"汔";
"汕";
"汗";
"汛";
"汜";
"汝";
"汞";
"江";
"池";
"污";
"汤";
"汧";
"汨";
"汩";
"汪";
"汫";
"汭";
"汰";
"汲";
"汴";
"汶";
"汹";
"汽";
"汾";
"沁";
"沂";
"沃";
"沄";
"沅";
"沆";
"沇";
"沈";
"沉";
"沌";
"沏";
"沐";
"沓";
"沔";
"沘";
"沙";
"沚";
"沛";
"沟";
"没";
"沣";
"沤";
"沥";
"沦";
"沧";
"沨";
"沩";
"沪";
"沫";
"沭";
"沮";
"沱";
"河";
"沸";
"油";
"沺";
"治";
"沼";
"沽";
"沾";
"沿";
"泂";
"泃";
"泄";
"泅";
"泇";
"泉";
"泊";
"泌";
"泐";
"泓";
"泔";
"法";
"泖";
"泗";
"泙";
"泚";
"泛";
"泜";
"泞";
"泠";
"泡";
"波";
"泣";
"泥";
"注";
"泪";
"泫";
"泮";
"泯";
"泰";
"泱";
"泳";
"泵";
"泷";
"泸";
"泺";
"泻";
"泼";
"泽";
"泾";
"洁";
"洄";
"洇";
"洈";
"洋";
"洌";
"洎";
"洑";
"洒";
"洓";
"洗";
"洘";
"洙";
"洚";
"洛";
"洞";
"洢";
"洣";
"津";
"洧";
"洨";
"洪";
"洫";
"洭";
"洮";
"洱";
"洲";
"洳";
"洴";
"洵";
"洸";
"洹";
"洺";
"活";
"洼";
"洽";
"派";
"洿";
"流";
"浃";
"浅";
"浆";
"浇";
"浈";
"浉";
"浊";
"测";
"浍";
"济";
"浏";
"浐";
"浑";
"浒";
"浓";
"浔";
"浕";
"浙";
"浚";
"浛";
"浜";
"浞";
"浟";
"浠";
"浡";
"浣";
"浥";
"浦";
"浩";
"浪";
"浬";
"浭";
"浮";
"浯";
"浰";
"浲";
"浴";
"海";
"浸";
"浼";
"涂";
"涄";
"涅";
"消";
"涉";
"涌";
"涍";
"涎";
"涐";
"涑";
"涓";
"涔";
"涕";
"涘";
"涛";
"涝";
"涞";
"涟";
"涠";
"涡";
"涢";
"涣";
"涤";
"润";
"涧";
"涨";
"涩";
"涪";
"涫";
"涮";
"涯";
"液";
"涴";
"涵";
"涸";
"涿";
"淀";
"淄";
"淅";
"淆";
"淇";
"淋";
"淌";
"淏";
"淑";
"淖";
"淘";
"淙";
"淜";
"淝";
"淞";
"淟";
"淠";
"淡";
"淤";
"淦";
"淫";
"淬";
"淮";
"淯";
"深";
"淳";
"淴";
"混";
"淹";
"添";
"淼";
"清";
"渊";
"渌";
"渍";
"渎";
"渐";
"渑";
"渔";
"渗";
"渚";
"渝";
"渟";
"渠";
"渡";
"渣";
"渤";
"渥";
"温";
"渫";
"渭";
"港";
"渰";
"渲";
"渴";
"游";
"渺";
"渼";
"湃";
"湄";
"湉";
"湍";
"湎";
"湑";
"湓";
"湔";
"湖";
"湘";
"湛";
"湜";
"湝";
"湟";
"湣";
"湫";
"湮";
"湲";
"湴";
"湾";
"湿";
"溁";
"溃";
"溅";
"溆";
"溇";
"溉";
"溍";
"溏";
"源";
"溘";
"溚";
"溜";
"溞";
"溟";
"溠";
"溢";
"溥";
"溦";
"溧";
"溪";
"溯";
"溱";
"溲";
"溴";
"溵";
"溶";
"溷";
"溹";
"溺";
"溻";
"溽";
"滁";
"滂";
"滃";
"滆";
"滇";
"滉";
"滋";
"滍";
"滏";
"滑";
"滓";
"滔";
"滕";
"滗";
"滘";
"滚";
"滞";
"滟";
"滠";
"满";
"滢";
"滤";
"滥";
"滦";
"滧";
"滨";
"滩";
"滪";
"滫";
"滴";
"滹";
"漂";
"漆";
"漈";
"漉";
"漋";
"漏";
"漓";
"演";
"漕";
"漖";
"漠";
"漤";
"漦";
"漩";
"漪";
"漫";
"漭";
"漯";
"漱";
"漳";
"漴";
"漶";
"漷";
"漹";
"漻";
"漼";
"漾";
"潆";
"潇";
"潋";
"潍";
"潏";
"潖";
"潘";
"潜";
"潞";
"潟";
"潢";
"潦";
"潩";
"潭";
"潮";
"潲";
"潴";
"潵";
"潸";
"潺";
"潼";
"潽";
"潾";
"澂";
"澄";
"澈";
"澉";
"澌";
"澍";
"澎";
"澛";
"澜";
"澡";
"澥";
"澧";
"澪";
"澭";
"澳";
"澴";
"澶";
"澹";
"澼";
"澽";
"激";
"濂";
"濉";
"濋";
"濑";
"濒";
"濞";
"濠";
"濡";
"濩";
"濮";
"濯";
"瀌";
"瀍";
"瀑";
"瀔";
"瀚";
"瀛";
"瀣";
"瀱";
"瀵";
"瀹";
"瀼";
"灈";
"灌";
"灏";
"灞";
"火";
"灭";
"灯";
"灰";
"灵";
"灶";
"灸";
"灼";
"灾";
"灿";
"炀";
"炅";
"炆";
"炉";
"炊";
"炌";
"炎";
"炒";
"炔";
"炕";
"炖";
"炘";
"炙";
"炜";
"炝";
"炟";
"炣";
"炫";
"炬";
"炭";
"炮";
"炯";
"炱";
"炳";
"炷";
"炸";
"点";
"炻";
"炼";
"炽";
"烀";
"烁";
"烂";
"烃";
"烈";
"烊";
"烔";
"烘";
"烙";
"烛";
"烜";
"烝";
"烟";
"烠";
"烤";
"烦";
"烧";
"烨";
"烩";
"烫";
"烬";
"热";
"烯";
"烶";
"烷";
"烹";
"烺";
"烻";
"烽";
"焆";
"焉";
"焊";
"焌";
"焐";
"焓";
"焕";
"焖";
"焗";
"焘";
"焙";
"焚";
"焜";
"焞";
"焦";
"焯";
"焰";
"焱";
"然";
"煁";
"煃";
"煅";
"煊";
"煋";
"煌";
"煎";
"煓";
"煜";
"煞";
"煟";
"煤";
"煦";
"照";
"煨";
"煮";
"煲";
"煳";
"煴";
"煸";
"煺";
"煽";
"熄";
"熇";
"熊";
"熏";
"熔";
"熘";
"熙";
"熛";
"熜";
"熟";
"熠";
"熥";
"熨";
"熬";
"熵";
"熹";
"熻";
"燃";
"燊";
"燋";
"燎";
"燏";
"燔";
"燕";
"燚";
"燠";
"燥";
"燧";
"燮";
"燹";
"爆";
"爇";
"爔";
"爚";
"爝";
"爟";
"爨";
"爪";
"爬";
"爰";
"爱";
"爵";
"父";
"爷";
"爸";
"爹";
"爻";
"爽";
"爿";
"牁";
"牂";
"片";
"版";
"牌";
"牍";
"牒";
"牖";
"牙";
"牚";
"牛";
"牝";
"牟";
"牡";
"牢";
"牤";
"牥";
"牦";
"牧";
"物";
"牮";
"牯";
"牲";
"牵";
"特";
"牺";
"牻";
"牾";
"牿";
"犀";
"犁";
"犄";
"犇";
"犊";
"犋";
"犍";
"犏";
"犒";
"犟";
"犨";
"犬";
"犯";
"犰";
"犴";
"状";
"犷";
"犸";
"犹";
"狁";
"狂";
"狃";
"狄";
"狈";
"狉";
"狍";
"狎";
"狐";
"狒";
"狗";
"狙";
"狝";
"狞";
"狠";
"狡";
"狨";
"狩";
"独";
"狭";
"狮";
"狯";
"狰";
"狱";
"狲";
"狳";
"狴";
"狷";
"狸";
"狺";
"狻";
"狼";
"猁";
"猃";
"猄";
"猇";
"猊";
"猎";
"猕";
"猖";
"猗";
"猛";
"猜";
"猝";
"猞";
"猡";
"猢";
"猥";
"猩";
"猪";
"猫";
"猬";
"献";
"猯";
"猰";
"猱";
"猴";
"猷";
"猹";
"猺";
"猾";
"猿";
"獍";
"獐";
"獒";
"獗";
"獠";
"獬";
"獭";
"獯";
"獴";
"獾";
"玃";
"玄";
"率";
"玉";
"王";
"玎";
"玑";
"玒";
"玓";
"玕";
"玖";
"玘";
"玙";
"玚";
"玛";
"玞";
"玟";
"玠";
"玡";
"玢";
"玤";
"玥";
"玦";
"玩";
"玫";
"玭";
"玮";
"环";
"现";
"玱";
"玲";
"玳";
"玶";
"玷";
"玹";
"玺";
"玻";
"玼";
"玿";
"珀";
"珂";
"珅";
"珇";
"珈";
"珉";
"珊";
"珋";
"珌";
"珍";
"珏";
"珐";
"珑";
"珒";
"珕";
"珖";
"珙";
"珛";
"珝";
"珞";
"珠";
"珢";
"珣";
"珥";
"珦";
"珧";
"珩";
"珪";
"珫";
"班";
"珰";
"珲";
"珵";
"珷";
"珸";
"珹";
"珺";
"珽";
"琀";
"球";
"琄";
"琅";
"理";
"琇";
"琈";
"琉";
"琊";
"琎";
"琏";
"琐";
"琔";
"琚";
"琛";
"琟";
"琡";
"琢";
"琤";
"琥";
"琦";
"琨";
"琪";
"琫";
"琬";
"琭";
"琮";
"琯";
"琰";
"琲";
"琳";
"琴";
"琵";
"琶";
"琼";
"瑀";
"瑁";
"瑂";
"瑃";
"瑄";
"瑅";
"瑆";
"瑑";
"瑓";
"瑔";
"瑕";
"瑖";
"瑗";
"瑙";
"瑚";
"瑛";
"瑜";
"瑝";
"瑞";
"瑟";
"瑢";
"瑧";
"瑨";
"瑬";
"瑭";
"瑰";
"瑱";
"瑳";
"瑶";
"瑷";
"瑾";
"璀";
"璁";
"璃";
"璆";
"璇";
"璈";
"璋";
"璎";
"璐";
"璒";
"璘";
"璜";
"璞";
"璟";
"璠";
"璥";
"璧";
"璨";
"璩";
"璪";
"璬";
"璮";
"璱";
"璲";
"璺";
"瓀";
"瓒";
"瓖";
"瓘";
"瓜";
"瓞";
"瓠";
"瓢";
"瓣";
"瓤";
"瓦";
"瓮";
"瓯";
"瓴";
"瓶";
"瓷";
"瓻";
"瓿";
"甄";
"甍";
"甏";
"甑";
"甓";
"甗";
"甘";
"甚";
"甜";
"生";
"甡";
"甥";
"甦";
"用";
"甩";
"甪";
"甫";
"甬";
"甭";
"甯";
"田";
"由";
"甲";
"申";
"电";
"男";
"甸";
"町";
"画";
"甾";
"畀";
"畅";
"畈";
"畋";
"界";
"畎";
"畏";
"畔";
"畖";
"留";
"畚";
"畛";
"畜";
"畤";
"略";
"畦";
"番";
"畬";
"畯";
"畲";
"畴";
"畸";
"畹";
"畿";
"疁";
"疃";
"疆";
"疍";
"疏";
"疐";
"疑";
"疔";
"疖";
"疗";
"疙";
"疚";
"疝";
"疟";
"疠";
"疡";
"疢";
"疣";
"疤";
"疥";
"疫";
"疬";
"疭";
"疮";
"疯";
"疰";
"疱";
"疲";
"疳";
"疴";
"疵";
"疸";
"疹";
"疼";
"疽";
"疾";
"痂";
"痃";
"痄";
"病";
"症";
"痈";
"痉";
"痊";
"痍";
"痒";
"痓";
"痔";
"痕";
"痘";
"痛";
"痞";
"痢";
"痣";
"痤";
"痦";
"痧";
"痨";
"痪";
"痫";
"痰";
"痱";
"痴";
"痹";
"痼";
"痿";
"瘀";
"瘁";
"瘃";
"瘅";
"瘆";
"瘊";
"瘌";
"瘐";
"瘕";
"瘗";
"瘘";
"瘙";
"瘛";
"瘟";
"瘠";
"瘢";
"瘤";
"瘥";
"瘦";
"瘩";
"瘪";
"瘫";
"瘭";
"瘰";
"瘳";
"瘴";
"瘵";
"瘸";
"瘼";
"瘾";
"瘿";
"癀";
"癃";
"癌";
"癍";
"癔";
"癖";
"癗";
"癜";
"癞";
"癣";
"癫";
"癯";
"癸";
"登";
"白";
"百";
"癿";
"皂";
"的";
"皆";
"皇";
"皈";
"皋";
"皎";
"皑";
"皓";
"皕";
"皖";
"皙";
"皛";
"皞";
"皤";
"皦";
"皭";
"皮";
"皱";
"皲";
"皴";
"皿";
"盂";
"盅";
"盆";
"盈";
"盉";
"益";
"盍";
"盎";
"盏";
"盐";
"监";
"盒";
"盔";
"盖";
"盗";
"盘";
"盛";
"盟";
"盥";
"盦";
"目";
"盯";
"盱";
"盲";
"直";
"盷";
"相";
"盹";
"盼";
"盾";
"省";
"眄";
"眇";
"眈";
"眉";
"眊";
"看";
"眍";
"眙";
"眚";
"真";
"眠";
"眢";
"眦";
"眨";
"眩";
"眬";
"眭";
"眯";
"眵";
"眶";
"眷";
"眸";
"眺";
"眼";
"着";
"睁";
"睃";
"睄";
"睇";
"睎";
"睐";
"睑";
"睚";
"睛";
"睡";
"睢";
"督";
"睥";
"睦";
"睨";
"睫";
"睬";
"睹";
"睽";
"睾";
"睿";
"瞀";
"瞄";
"瞅";
"瞋";
"瞌";
"瞍";
"瞎";
"瞑";
"瞒";
"瞟";
"瞠";
"瞢";
"瞥";
"瞧";
"瞩";
"瞪";
"瞫";
"瞬";
"瞭";
"瞰";
"瞳";
"瞵";
"瞻";
"瞽";
"瞿";
"矍";
"矗";
"矛";
"矜";
"矞";
"矢";
"矣";
"知";
"矧";
"矩";
"矫";
"矬";
"短";
"矮";
"矰";
"石";
"矶";
"矸";
"矻";
"矼";
"矾";
"矿";
"砀";
"码";
"砂";
"砄";
"砆";
"砉";
"砌";
"砍";
"砑";
"砒";
"研";
"砖";
"砗";
"砘";
"砚";
"砜";
"砝";
"砟";
"砠";
"砣";
"砥";
"砧";
"砫";
"砬";
"砭";
"砮";
"砰";
"破";
"砵";
"砷";
"砸";
"砹";
"砺";
"砻";
"砼";
"砾";
"础";
"硁";
"硅";
"硇";
"硊";
"硌";
"硍";
"硎";
"硐";
"硒";
"硔";
"硕";
"硖";
"硗";
"硙";
"硚";
"硝";
"硪";
"硫";
"硬";
"硭";
"确";
"硼";
"硿";
"碃";
"碇";
"碈";
"碉";
"碌";
"碍";
"碎";
"碏";
"碑";
"碓";
"碗";
"碘";
"碚";
"碛";
"碜";
"碟";
"碡";
"碣";
"碥";
"碧";
"碨";
"碰";
"碱";
"碲";
"碳";
"碴";
"碶";
"碹";
"碾";
"磁";
"磅";
"磉";
"磊";
"磋";
"磏";
"磐";
"磔";
"磕";
"磙";
"磜";
"磡";
"磨";
"磬";
"磲";
"磴";
"磷";
"磹";
"磻";
"礁";
"礅";
"礌";
"礓";
"礞";
"礴";
"礵";
"示";
"礼";
"社";
"祀";
"祁";
"祃";
"祆";
"祇";
"祈";
"祉";
"祊";
"祋";
"祎";
"祏";
"祐";
"祓";
"祕";
"祖";
"祗";
"祚";
"祛";
"祜";
"祝";
"神";
"祟";
"祠";
"祢";
"祥";
"祧";
"票";
"祭";
"祯";
"祲";
"祷";
"祸";
"祺";
"祼";
"祾";
"禀";
"禁";
"禄";
"禅";
"禊";
"禋";
"福";
"禒";
"禔";
"禘";
"禚";
"禛";
"禤";
"禧";
"禳";
"禹";
"禺";
"离";
"禽";
"禾";
"秀";
"私";
"秃";
"秆";
"秉";
"秋";
"种";
"科";
"秒";
"秕";
"秘";
"租";
"秣";
"秤";
"秦";
"秧";
"秩";
"秫";
"秬";
"秭";
"积";
"称";
"秸";
"移";
"秽";
"秾";
"稀";
"稂";
"稃";
"稆";
"程";
"稌";
"稍";
"税";
"稑";
"稔";
"稗";
"稙";
"稚";
"稞";
"稠";
"稣";
"稳";
"稷";
"稹";
"稻";
"稼";
"稽";
"稿";
"穄";
"穆";
"穑";
"穗";
"穙";
"穜";
"穟";
"穰";
"穴";
"究";
"穷";
"穸";
"穹";
"空";
"穿";
"窀";
"突";
"窃";
"窄";
"窅";
"窈";
"窊";
"窍";
"窎";
"窑";
"窒";
"窕";
"窖";
"窗";
"窘";
"窜";
"窝";
"窟";
"窠";
"窣";
"窥";
"窦";
"窨";
"窬";
"窭";
"窳";
"窸";
"窿";
"立";
"竑";
"竖";
"竘";
"站";
"竞";
"竟";
"章";
"竣";
"童";
"竦";
"竫";
"竭";
"端";
"竹";
"竺";
"竽";
"竿";
"笃";
"笄";
"笆";
"笈";
"笊";
"笋";
"笏";
"笑";
"笔";
"笕";
"笙";
"笛";
"笞";
"笠";
"笤";
"笥";
"符";
"笨";
"笪";
"笫";
"第";
"笮";
"笯";
"笱";
"笳";
"笸";
"笺";
"笼";
"笾";
"筀";
"筅";
"筇";
"等";
"筋";
"筌";
"筏";
"筐";
"筑";
"筒";
"答";
"策";
"筘";
"筚";
"筛";
"筜";
"筝";
"筠";
"筢";
"筤";
"筥";
"筦";
"筮";
"筱";
"筲";
"筵";
"筶";
"筷";
"筹";
"筻";
"筼";
"签";
"简";
"箅";
"箍";
"箐";
"箓";
"箔";
"箕";
"箖";
"算";
"箜";
"管";
"箢";
"箦";
"箧";
"箨";
"箩";
"箪";
"箫";
"箬";
"箭";
"箱";
"箴";
"箸";
"篁";
"篆";
"篇";
"篌";
"篑";
"篓";
"篙";
"篚";
"篝";
"篡";
"篥";
"篦";
"篪";
"篮";
"篯";
"篱";
"篷";
"篼";
"篾";
"簃";
"簇";
"簉";
"簋";
"簌";
"簏";
"簕";
"簖";
"簝";
"簟";
"簠";
"簧";
"簪";
"簰";
"簸";
"簿";
"籀";
"籁";
"籍";
"籥";
"米";
"籴";
"类";
"籼";
"籽";
"粉";
"粑";
"粒";
"粕";
"粗";
"粘";
"粜";
"粝";
"粞";
"粟";
"粢";
"粤";
"粥";
"粪";
"粮";
"粱";
"粲";
"粳";
"粹";
"粼";
"粽";
"精";
"粿";
"糁";
"糅";
"糇";
"糈";
"糊";
"糌";
"糍";
"糒";
"糕";
"糖";
"糗";
"糙";
"糜";
"糟";
"糠";
"糨";
"糯";
"糵";
"系";
"紊";
"素";
"索";
"紧";
"紫";
"累";
"絜";
"絮";
"絷";
"綦";
"綮";
"縠";
"縢";
"縻";
"繁";
"繄";
"繇";
"纂";
"纛";
"纠";
"纡";
"红";
"纣";
"纤";
"纥";
"约";
"级";
"纨";
"纩";
"纪";
"纫";
"纬";
"纭";
"纮";
"纯";
"纰";
"纱";
"纲";
"纳";
"纴";
"纵";
"纶";
"纷";
"纸";
"纹";
"纺";
"纻";
"纼";
"纽";
"纾";
"线";
"绀";
"绁";
"绂";
"练";
"组";
"绅";
"细";
"织";
"终";
"绉";
"绊";
"绋";
"绌";
"绍";
"绎";
"经";
"绐";
"绑";
"绒";
"结";
"绔";
"绕";
"绖";
"绗";
"绘";
"给";
"绚";
"绛";
"络";
"绝";
"绞";
"统";
"绠";
"绡";
"绢";
"绣";
"绤";
"绥";
"绦";
"继";
"绨";
"绩";
"绪";
"绫";
"续";
"绮";
"绯";
"绰";
"绱";
"绲";
"绳";
"维";
"绵";
"绶";
"绷";
"绸";
"绹";
"绺";
"绻";
"综";
"绽";
"绾";
"绿";
"缀";
"缁";
"缂";
"缃";
"缄";
"缅";
"缆";
"缇";
"缈";
"缉";
"缊";
"缌";
"缎";
"缐";
"缑";
"缒";
"缓";
"缔";
"缕";
"编";
"缗";
"缘";
"缙";
"缚";
"缛";
"缜";
"缝";
"缞";
"缟";
"缠";
"缡";
"缢";
"缣";
"缤";
"缥";
"缦";
"缧";
"缨";
"缩";
"缪";
"缫";
"缬";
"缭";
"缮";
"缯";
"缰";
"缱";
"缲";
"缳";
"缴";
"缵";
"缶";
"缸";
"缺";
"罂";
"罄";
"罅";
"罍";
"罐";
"网";
"罔";
"罕";
"罗";
"罘";
"罚";
"罟";
"罡";
"罢";
"罨";
"罩";
"罪";
"置";
"罱";
"署";
"罴";
"罶";
"罹";
"罽";
"罾";
"羁";
"羊";
"羌";
"美";
"羑";
"羓";
"羔";
"羕";
"羖";
"羚";
"羝";
"羞";
"羟";
"羡";
"群";
"羧";
"羯";
"羰";
"羱";
"羲";
"羸";
"羹";
"羼";
"羽";
"羿";
"翀";
"翁";
"翂";
"翃";
"翅";
"翈";
"翊";
"翌";
"翎";
"翔";
"翕";
"翘";
"翙";
"翚";
"翛";
"翟";
"翠";
"翡";
"翥";
"翦";
"翩";
"翮";
"翯";
"翰";
"翱";
"翳";
"翷";
"翻";
"翼";
"翾";
"耀";
"老";
"考";
"耄";
"者";
"耆";
"耇";
"耋";
"而";
"耍";
"耏";
"耐";
"耑";
"耒";
"耔";
"耕";
"耖";
"耗";
"耘";
"耙";
"耜";
"耠";
"耢";
"耤";
"耥";
"耦";
"耧";
"耨";
"耩";
"耪";
"耰";
"耱";
"耳";
"耵";
"耶";
"耷";
"耸";
"耻";
"耽";
"耿";
"聂";
"聃";
"聆";
"聊";
"聋";
"职";
"聍";
"聒";
"联";
"聘";
"聚";
"聩";
"聪";
"聱";
"聿";
"肃";
"肄";
"肆";
"肇";
"肉";
"肋";
"肌";
"肓";
"肖";
"肘";
"肚";
"肛";
"肝";
"肟";
"肠";
"股";
"肢";
"肤";
"肥";
"肩";
"肪";
"肫";
"肭";
"肮";
"肯";
"肱";
"育";
"肴";
"肷";
"肸";
"肺";
"肼";
"肽";
"肾";
"肿";
"胀";
"胁";
"胂";
"胃";
"胄";
"胆";
"胈";
"背";
"胍";
"胎";
"胖";
"胗";
"胙";
"胚";
"胛";
"胜";
"胝";
"胞";
"胠";
"胡";
"胣";
"胤";
"胥";
"胧";
"胨";
"胩";
"胪";
"胫";
"胬";
"胭";
"胯";
"胰";
"胱";
"胲";
"胳";
"胴";
"胶";
"胸";
"胺";
"胼";
"能";
"脂";
"脆";
"脉";
"脊";
"脍";
"脎";
"脏";
"脐";
"脑";
"脒";
"脓";
"脔";
"脖";
"脘";
"脚";
"脞";
"脟";
"脩";
"脬";
"脯";
"脱";
"脲";
"脶";
"脸";
"脾";
"脿";
"腆";
"腈";
"腊";
"腋";
"腌";
"腐";
"腑";
"腒";
"腓";
"腔";
"腕";
"腘";
"腙";
"腚";
"腠";
"腥";
"腧";
"腨";
"腩";
"腭";
"腮";
"腯";
"腰";
"腱";
"腴";
"腹";
"腺";
"腻";
"腼";
"腽";
"腾";
"腿";
"膀";
"膂";
"膈";
"膊";
"膏";
"膑";
"膘";
"膙";
"膛";
"膜";
"膝";
"膦";
"膨";
"膳";
"膺";
"膻";
"臀";
"臂";
"臃";
"臆";
"臊";
"臌";
"臑";
"臜";
"臣";
"臧";
"自";
"臬";
"臭";
"至";
"致";
"臻";
"臼";
"臾";
"舀";
"舁";
"舂";
"舄";
"舅";
"舆";
"舌";
"舍";
"舐";
"舒";
"舔";
"舛";
"舜";
"舞";
"舟";
"舠";
"舢";
"舣";
"舥";
"航";
"舫";
"般";
"舭";
"舯";
"舰";
"舱";
"舲";
"舳";
"舴";
"舵";
"舶";
"舷";
"舸";
"船";
"舻";
"舾";
"艄";
"艅";
"艇";
"艉";
"艋";
"艎";
"艏";
"艘";
"艚";
"艟";
"艨";
"艮";
"良";
"艰";
"色";
"艳";
"艴";
"艺";
"艽";
"艾";
"艿";
"节";
"芃";
"芄";
"芈";
"芊";
"芋";
"芍";
"芎";
"芏";
"芑";
"芒";
"芗";
"芘";
"芙";
"芜";
"芝";
"芟";
"芠";
"芡";
"芣";
"芤";
"芥";
"芦";
"芨";
"芩";
"芪";
"芫";
"芬";
"芭";
"芮";
"芯";
"芰";
"花";
"芳";
"芴";
"芷";
"芸";
"芹";
"芼";
"芽";
"芾";
"苁";
"苄";
"苇";
"苈";
"苉";
"苊";
"苋";
"苌";
"苍";
"苎";
"苏";
"苑";
"苒";
"苓";
"苔";
"苕";
"苗";
"苘";
"苛";
"苜";
"苞";
"苟";
"苠";
"苡";
"苣";
"苤";
"若";
"苦";
"苧";
"苫";
"苯";
"英";
"苴";
"苷";
"苹";
"苻";
"苾";
"茀";
"茁";
"茂";
"范";
"茄";
"茅";
"茆";
"茈";
"茉";
"茋";
"茌";
"茎";
"茏";
"茑";
"茓";
"茔";
"茕";
"茗";
"茚";
"茛";
"茜";
"茝";
"茧";
"茨";
"茫";
"茬";
"茭";
"茯";
"茱";
"茳";
"茴";
"茵";
"茶";
"茸";
"茹";
"茺";
"茼";
"茽";
"荀";
"荁";
"荃";
"荄";
"荆";
"荇";
"草";
"荏";
"荐";
"荑";
"荒";
"荓";
"荔";
"荖";
"荙";
"荚";
"荛";
"荜";
"荞";
"荟";
"荠";
"荡";
"荣";
"荤";
"荥";
"荦";
"荧";
"荨";
"荩";
"荪";
"荫";
"荬";
"荭";
"荮";
"药";
"荷";
"荸";
"荻";
"荼";
"荽";
"莅";
"莆";
"莉";
"莎";
"莒";
"莓";
"莘";
"莙";
"莛";
"莜";
"莝";
"莞";
"莠";
"莨";
"莩";
"莪";
"莫";
"莰";
"莱";
"莲";
"莳";
"莴";
"莶";
"获";
"莸";
"莹";
"莺";
"莼";
"莽";
"莿";
"菀";
"菁";
"菂";
"菅";
"菇";
"菉";
"菊";
"菌";
"菍";
"菏";
"菔";
"菖";
"菘";
"菜";
"菝";
"菟";
"菠";
"菡";
"菥";
"菩";
"菪";
"菰";
"菱";
"菲";
"菹";
"菼";
"菽";
"萁";
"萃";
"萄";
"萆";
"萋";
"萌";
"萍";
"萎";
"萏";
"萑";
"萘";
"萚";
"萜";
"萝";
"萣";
"萤";
"营";
"萦";
"萧";
"萨";
"萩";
"萱";
"萳";
"萸";
"萹";
"萼";
"落";
"葆";
"葎";
"葑";
"葖";
"著";
"葙";
"葚";
"葛";
"葜";
"葡";
"董";
"葩";
"葫";
"葬";
"葭";
"葰";
"葱";
"葳";
"葴";
"葵";
"葶";
"葸";
"葺";
"蒂";
"蒄";
"蒇";
"蒈";
"蒉";
"蒋";
"蒌";
"蒎";
"蒐";
"蒗";
"蒙";
"蒜";
"蒟";
"蒡";
"蒨";
"蒯";
"蒱";
"蒲";
"蒴";
"蒸";
"蒹";
"蒺";
"蒻";
"蒽";
"蒿";
"蓁";
"蓂";
"蓄";
"蓇";
"蓉";
"蓊";
"蓍";
"蓏";
"蓐";
"蓑";
"蓓";
"蓖";
"蓝";
"蓟";
"蓠";
"蓢";
"蓣";
"蓥";
"蓦";
"蓬";
"蓰";
"蓼";
"蓿";
"蔀";
"蔃";
"蔈";
"蔊";
"蔌";
"蔑";
"蔓";
"蔗";
"蔚";
"蔟";
"蔡";
"蔫";
"蔬";
"蔷";
"蔸";
"蔹";
"蔺";
"蔻";
"蔼";
"蔽";
"蕃";
"蕈";
"蕉";
"蕊";
"蕖";
"蕗";
"蕙";
"蕞";
"蕤";
"蕨";
"蕰";
"蕲";
"蕴";
"蕹";
"蕺";
"蕻";
"蕾";
"薁";
"薄";
"薅";
"薇";
"薏";
"薛";
"薜";
"薢";
"薤";
"薨";
"薪";
"薮";
"薯";
"薰";
"薳";
"薷";
"薸";
"薹";
"薿";
"藁";
"藉";
"藏";
"藐";
"藓";
"藕";
"藜";
"藟";
"藠";
"藤";
"藦";
"藨";
"藩";
"藻";
"藿";
"蘅";
"蘑";
"蘖";
"蘘";
"蘧";
"蘩";
"蘸";
"蘼";
"虎";
"虏";
"虐";
"虑";
"虒";
"虓";
"虔";
"虚";
"虞";
"虢";
"虤";
"虫";
"虬";
"虮";
"虱";
"虷";
"虸";
"虹";
"虺";
"虻";
"虼";
"虽";
"虾";
"虿";
"蚀";
"蚁";
"蚂";
"蚄";
"蚆";
"蚊";
"蚋";
"蚌";
"蚍";
"蚓";
"蚕";
"蚜";
"蚝";
"蚣";
"蚤";
"蚧";
"蚨";
"蚩";
"蚪";
"蚬";
"蚯";
"蚰";
"蚱";
"蚲";
"蚴";
"蚶";
"蚺";
"蛀";
"蛃";
"蛄";
"蛆";
"蛇";
"蛉";
"蛊";
"蛋";
"蛎";
"蛏";
"蛐";
"蛑";
"蛔";
"蛘";
"蛙";
"蛛";
"蛞";
"蛟";
"蛤";
"蛩";
"蛭";
"蛮";
"蛰";
"蛱";
"蛲";
"蛳";
"蛴";
"蛸";
"蛹";
"蛾";
"蜀";
"蜂";
"蜃";
"蜇";
"蜈";
"蜉";
"蜊";
"蜍";
"蜎";
"蜐";
"蜒";
"蜓";
"蜕";
"蜗";
"蜘";
"蜚";
"蜜";
"蜞";
"蜡";
"蜢";
"蜣";
"蜥";
"蜩";
"蜮";
"蜱";
"蜴";
"蜷";
"蜻";
"蜾";
"蜿";
"蝇";
"蝈";
"蝉";
"蝌";
"蝎";
"蝓";
"蝗";
"蝘";
"蝙";
"蝠";
"蝣";
"蝤";
"蝥";
"蝮";
"蝰";
"蝲";
"蝴";
"蝶";
"蝻";
"蝼";
"蝽";
"蝾";
"螂";
"螃";
"螅";
"螈";
"螋";
"融";
"螗";
"螟";
"螠";
"螣";
"螨";
"螫";
"螬";
"螭";
"螯";
"螱";
"螳";
"螵";
"螺";
"螽";
"蟀";
"蟆";
"蟊";
"蟋";
"蟏";
"蟑";
"蟒";
"蟛";
"蟠";
"蟥";
"蟪";
"蟫";
"蟮";
"蟹";
"蟾";
"蠃";
"蠊";
"蠋";
"蠓";
"蠕";
"蠖";
"蠡";
"蠢";
"蠲";
"蠹";
"蠼";
"血";
"衃";
"衄";
"衅";
"行";
"衍";
"衎";
"衒";
"衔";
"街";
"衙";
"衠";
"衡";
"衢";
"衣";
"补";
"表";
"衩";
"衫";
"衬";
"衮";
"衰";
"衲";
"衷";
"衽";
"衾";
"衿";
"袁";
"袂";
"袄";
"袅";
"袆";
"袈";
"袋";
"袍";
"袒";
"袖";
"袗";
"袜";
"袢";
"袤";
"袪";
"被";
"袭";
"袯";
"袱";
"袷";
"袼";
"裁";
"裂";
"装";
"裆";
"裈";
"裉";
"裎";
"裒";
"裔";
"裕";
"裘";
"裙";
"裛";
"裟";
"裢";
"裣";
"裤";
"裥";
"裨";
"裰";
"裱";
"裳";
"裴";
"裸";
"裹";
"裼";
"裾";
"褂";
"褊";
"褐";
"褒";
"褓";
"褕";
"褙";
"褚";
"褛";
"褟";
"褡";
"褥";
"褪";
"褫";
"褯";
"褰";
"褴";
"褶";
"襁";
"襄";
"襕";
"襚";
"襜";
"襞";
"襟";
"襦";
"襫";
"襻";
"西";
"要";
"覃";
"覆";
"见";
"观";
"觃";
"规";
"觅";
"视";
"觇";
"览";
"觉";
"觊";
"觋";
"觌";
"觎";
"觏";
"觐";
"觑";
"角";
"觖";
"觚";
"觜";
"觞";
"觟";
"解";
"觥";
"触";
"觫";
"觭";
"觯";
"觱";
"觳";
"觿";
"言";
"訄";
"訇";
"訚";
"訾";
"詈";
"詟";
"詹";
"誉";
"誊";
"誓";
"謇";
"警";
"譬";
"计";
"订";
"讣";
"认";
"讥";
"讦";
"讧";
"讨";
"让";
"讪";
"讫";
"训";
"议";
"讯";
"记";
"讱";
"讲";
"讳";
"讴";
"讵";
"讶";
"讷";
"许";
"讹";
"论";
"讻";
"讼";
"讽";
"设";
"访";
"诀";
"证";
"诂";
"诃";
"评";
"诅";
"识";
"诇";
"诈";
"诉";
"诊";
"诋";
"诌";
"词";
"诎";
"诏";
"诐";
"译";
"诒";
"诓";
"诔";
"试";
"诖";
"诗";
"诘";
"诙";
"诚";
"诛";
"诜";
"话";
"诞";
"诟";
"诠";
"诡";
"询";
"诣";
"诤";
"该";
"详";
"诧";
"诨";
"诩";
"诫";
"诬";
"语";
"诮";
"误";
"诰";
"诱";
"诲";
"诳";
"说";
"诵";
"请";
"诸";
"诹";
"诺";
"读";
"诼";
"诽";
"课";
"诿";
"谀";
"谁";
"谂";
"调";
"谄";
"谅";
"谆";
"谇";
"谈";
"谊";
"谋";
"谌";
"谍";
"谎";
"谏";
"谐";
"谑";
"谒";
"谓";
"谔";
"谕";
"谖";
"谗";
"谙";
"谚";
"谛";
"谜";
"谝";
"谞";
"谟";
"谠";
"谡";
"谢";
"谣";
"谤";
"谥";
"谦";
"谧";
"谨";
"谩";
"谪";
"谫";
"谬";
"谭";
"谮";
"谯";
"谰";
"谱";
"谲";
"谳";
"谴";
"谵";
"谶";
"谷";
"谼";
"谿";
"豁";
"豆";
"豇";
"豉";
"豌";
"豕";
"豚";
"象";
"豢";
"豨";
"豪";
"豫";
"豮";
"豳";
"豸";
"豹";
"豺";
"貂";
"貅";
"貆";
"貉";
"貊";
"貌";
"貔";
"貘";
"贝";
"贞";
"负";
"贡";
"财";
"责";
"贤";
"败";
"账";
"货";
"质";
"贩";
"贪";
"贫";
"贬";
"购";
"贮";
"贯";
"贰";
"贱";
"贲";
"贳";
"贴";
"贵";
"贶";
"贷";
"贸";
"费";
"贺";
"贻";
"贼";
"贽";
"贾";
"贿";
"赀";
"赁";
"赂";
"赃";
"资";
"赅";
"赆";
"赇";
"赈";
"赉";
"赊";
"赋";
"赌";
"赍";
"赎";
"赏";
"赐";
"赑";
"赒";
"赓";
"赔";
"赕";
"赖";
"赗";
"赘";
"赙";
"赚";
"赛";
"赜";
"赝";
"赞";
"赟";
"赠";
"赡";
"赢";
"赣";
"赤";
"赦";
"赧";
"赪";
"赫";
"赭";
"走";
"赳";
"赴";
"赵";
"赶";
"起";
"趁";
"趄";
"超";
"越";
"趋";
"趑";
"趔";
"趟";
"趣";
"趯";
"趱";
"足";
"趴";
"趵";
"趸";
"趺";
"趼";
"趾";
"趿";
"跂";
"跃";
"跄";
"跆";
"跋";
"跌";
"跎";
"跏";
"跐";
"跑";
"跖";
"跗";
"跚";
"跛";
"距";
"跞";
"跟";
"跣";
"跤";
"跨";
"跪";
"跬";
"路";
"跱";
"跳";
"践";
"跶";
"跷";
"跸";
"跹";
"跺";
"跻";
"跽";
"踅";
"踉";
"踊";
"踌";
"踏";
"踒";
"踔";
"踝";
"踞";
"踟";
"踢";
"踣";
"踦";
"踩";
"踪";
"踬";
"踮";
"踯";
"踱";
"踵";
"踶";
"踹";
"踺";
"踽";
"蹀";
"蹁";
"蹂";
"蹄";
"蹅";
"蹇";
"蹈";
"蹉";
"蹊";
"蹋";
"蹐";
"蹑";
"蹒";
"蹙";
"蹚";
"蹜";
"蹢";
"蹦";
"蹩";
"蹬";
"蹭";
"蹯";
"蹰";
"蹲";
"蹴";
"蹶";
"蹼";
"蹽";
"蹾";
"蹿";
"躁";
"躅";
"躇";
"躏";
"躐";
"躔";
"躜";
"躞";
"身";
"躬";
"躯";
"躲";
"躺";
"车";
"轧";
"轨";
"轩";
"轪";
"轫";
"转";
"轭";
"轮";
"软";
"轰";
"轱";
"轲";
"轳";
"轴";
"轵";
"轶";
"轷";
"轸";
"轹";
"轺";
"轻";
"轼";
"载";
"轾";
"轿";
"辀";
"辁";
"辂";
"较";
"辄";
"辅";
"辆";
"辇";
"辈";
"辉";
"辊";
"辋";
"辌";
"辍";
"辎";
"辏";
"辐";
"辑";
"辒";
"输";
"辔";
"辕";
"辖";
"辗";
"辘";
"辙";
"辚";
"辛";
"辜";
"辞";
"辟";
"辣";
"辨";
"辩";
"辫";
"辰";
"辱";
"边";
"辽";
"达";
"辿";
"迁";
"迂";
"迄";
"迅";
"过";
"迈";
"迎";
"运";
"近";
"迓";
"返";
"迕";
"还";
"这";
"进";
"远";
"违";
"连";
"迟";
"迢";
"迤";
"迥";
"迦";
"迨";
"迩";
"迪";
"迫";
"迭";
"迮";
"述";
"迳";
"迷";
"迸";
"迹";
"迺";
"追";
"退";
"送";
"适";
"逃";
"逄";
"逅";
"逆";
"选";
"逊";
"逋";
"逍";
"透";
"逐";
"逑";
"递";
"途";
"逖";
"逗";
"通";
"逛";
"逝";
"逞";
"速";
"造";
"逡";
"逢";
"逦";
"逭";
"逮";
"逯";
"逴";
"逵";
"逶";
"逸";
"逻";
"逼";
"逾";
"遁";
"遂";
"遄";
"遆";
"遇";
"遍";
"遏";
"遐";
"遑";
"遒";
"道";
"遗";
"遘";
"遛";
"遢";
"遣";
"遥";
"遨";
"遭";
"遮";
"遴";
"遵";
"遹";
"遽";
"避";
"邀";
"邂";
"邃";
"邈";
"邋";
"邑";
"邓";
"邕";
"邗";
"邘";
"邙";
"邛";
"邝";
"邠";
"邡";
"邢";
"那";
"邦";
"邨";
"邪";
"邬";
"邮";
"邯";
"邰";
"邱";
"邲";
"邳";
"邴";
"邵";
"邶";
"邸";
"邹";
"邺";
"邻";
"邽";
"邾";
"邿";
"郁";
"郃";
"郄";
"郅";
"郇";
"郈";
"郊";
"郎";
"郏";
"郐";
"郑";
"郓";
"郗";
"郚";
"郛";
"郜";
"郝";
"郡";
"郢";
"郤";
"郦";
"郧";
"部";
"郪";
"郫";
"郭";
"郯";
"郴";
"郸";
"都";
"郾";
"郿";
"鄀";
"鄂";
"鄃";
"鄄";
"鄅";
"鄌";
"鄑";
"鄗";
"鄘";
"鄙";
"鄚";
"鄜";
"鄞";
"鄠";
"鄢";
"鄣";
"鄫";
"鄯";
"鄱";
"鄹";
"酂";
"酃";
"酅";
"酆";
"酉";
"酊";
"酋";
"酌";
"配";
"酎";
"酏";
"酐";
"酒";
"酗";
"酚";
"酝";
"酞";
"酡";
"酢";
"酣";
"酤";
"酥";
"酦";
"酩";
"酪";
"酬";
"酮";
"酯";
"酰";
"酱";
"酲";
"酴";
"酵";
"酶";
"酷";
"酸";
"酹";
"酺";
"酽";
"酾";
"酿";
"醅";
"醇";
"醉";
"醋";
"醌";
"醍";
"醐";
"醑";
"醒";
"醚";
"醛";
"醢";
"醨";
"醪";
"醭";
"醮";
"醯";
"醴";
"醵";
"醺";
"醾";
"采";
"釉";
"释";
"里";
"重";
"野";
"量";
"釐";
"金";
"釜";
"鉴";
"銎";
"銮";
"鋆";
"鋈";
"錾";
"鍪";
"鎏";
"鏊";
"鏖";
"鐾";
"鑫";
"钆";
"钇";
"针";
"钉";
"钊";
"钋";
"钌";
"钍";
"钎";
"钏";
"钐";
"钒";
"钓";
"钔";
"钕";
"钖";
"钗";
"钘";
"钙";
"钚";
"钛";
"钜";
"钝";
"钞";
"钟";
"钠";
"钡";
"钢";
"钣";
"钤";
"钥";
"钦";
"钧";
"钨";
"钩";
"钪";
"钫";
"钬";
"钭";
"钮";
"钯";
"钰";
"钱";
"钲";
"钳";
"钴";
"钵";
"钷";
"钹";
"钺";
"钻";
"钼";
"钽";
"钾";
"钿";
"铀";
"铁";
"铂";
"铃";
"铄";
"铅";
"铆";
"铈";
"铉";
"铊";
"铋";
"铌";
"铍";
"铎";
"铏";
"铐";
"铑";
"铒";
"铕";
"铖";
"铗";
"铘";
"铙";
"铚";
"铛";
"铜";
"铝";
"铞";
"铟";
"铠";
"铡";
"铢";
"铣";
"铤";
"铥";
"铧";
"铨";
"铩";
"铪";
"铫";
"铬";
"铭";
"铮";
"铯";
"铰";
"铱";
"铲";
"铳";
"铴";
"铵";
"银";
"铷";
"铸";
"铹";
"铺";
"铻";
"铼";
"铽";
"链";
"铿";
"销";
"锁";
"锂";
"锃";
"锄";
"锅";
"锆";
"锇";
"锈";
"锉";
"锊";
"锋";
"锌";
"锍";
"锎";
"锏";
"锐";
"锑";
"锒";
"锓";
"锔";
"锕";
"锖";
"锗";
"锘";
"错";
"锚";
"锛";
"锜";
"锝";
"锞";
"锟";
"锡";
"锢";
"锣";
"锤";
"锥";
"锦";
"锧";
"锨";
"锩";
"锪";
"锫";
"锬";
"锭";
"键";
"锯";
"锰";
"锱";
"锲";
"锳";
"锴";
"锵";
"锶";
"锷";
"锸";
"锹";
"锺";
"锻";
"锼";
"锽";
"锾";
"锿";
"镀";
"镁";
"镂";
"镃";
"镄";
"镅";
"镆";
"镇";
"镈";
"镉";
"镊";
"镋";
"镌";
"镍";
"镎";
"镏";
"镐";
"镑";
"镒";
"镓";
"镔";
"镕";
"镖";
"镗";
"镘";
"镚";
"镛";
"镜";
"镝";
"镞";
"镠";
"镡";
"镢";
"镣";
"镤";
"镥";
"镦";
"镧";
"镨";
"镩";
"镪";
"镫";
"镬";
"镭";
"镮";
"镯";
"镰";
"镱";
"镲";
"镳";
"镴";
"镵";
"镶";
"长";
"门";
"闩";
"闪";
"闫";
"闭";
"问";
"闯";
"闰";
"闱";
"闲";
"闳";
"间";
"闵";
"闶";
"闷";
"闸";
"闹";
"闺";
"闻";
"闼";
"闽";
"闾";
"闿";
"阀";
"阁";
"阂";
"阃";
"阄";
"阅";
"阆";
"阇";
"阈";
"阉";
"阊";
"阋";
"阌";
"阍";
"阎";
"阏";
"阐";
"阑";
"阒";
"阔";
"阕";
"阖";
"阗";
"阘";
"阙";
"阚";
"阜";
"队";
"阡";
"阪";
"阮";
"阱";
"防";
"阳";
"阴";
"阵";
"阶";
"阻";
"阼";
"阽";
"阿";
"陀";
"陂";
"附";
"际";
"陆";
"陇";
"陈";
"陉";
"陋";
"陌";
"降";
"陎";
"限";
"陑";
"陔";
"陕";
"陛";
"陞";
"陟";
"陡";
"院";
"除";
"陧";
"陨";
"险";
"陪";
"陬";
"陲";
"陴";
"陵";
"陶";
"陷";
"隃";
"隅";
"隆";
"隈";
"隋";
"隍";
"随";
"隐";
"隔";
"隗";
"隘";
"隙";
"障";
"隧";
"隩";
"隰";
"隳";
"隶";
"隹";
"隺";
"隼";
"隽";
"难";
"雀";
"雁";
"雄";
"雅";
"集";
"雇";
"雉";
"雊";
"雌";
"雍";
"雎";
"雏";
"雒";
"雕";
"雠";
"雨";
"雩";
"雪";
"雯";
"雱";
"雳";
"零";
"雷";
"雹";
"雾";
"需";
"霁";
"霄";
"霅";
"霆";
"震";
"霈";
"霉";
"霍";
"霎";
"霏";
"霓";
"霖";
"霜";
"霞";
"霨";
"霪";
"霭";
"霰";
"露";
"霸";
"霹";
"霾";
"青";
"靓";
"靖";
"静";
"靛";
"非";
"靠";
"靡";
"面";
"靥";
"革";
"靬";
"靰";
"靳";
"靴";
"靶";
"靸";
"靺";
"靼";
"靽";
"靿";
"鞁";
"鞅";
"鞋";
"鞍";
"鞑";
"鞒";
"鞔";
"鞘";
"鞠";
"鞡";
"鞣";
"鞧";
"鞨";
"鞫";
"鞬";
"鞭";
"鞮";
"鞯";
"鞲";
"鞳";
"鞴";
"韂";
"韦";
"韧";
"韨";
"韩";
"韪";
"韫";
"韬";
"韭";
"音";
"韵";
"韶";
"页";
"顶";
"顷";
"顸";
"项";
"顺";
"须";
"顼";
"顽";
"顾";
"顿";
"颀";
"颁";
"颂";
"颃";
"预";
"颅";
"领";
"颇";
"颈";
"颉";
"颊";
"颋";
"颌";
"颍";
"颎";
"颏";
"颐";
"频";
"颓";
"颔";
"颖";
"颗";
"题";
"颙";
"颚";
"颛";
"颜";
"额";
"颞";
"颟";
"颠";
"颡";
"颢";
"颤";
"颥";
"颦";
"颧";
"风";
"飏";
"飐";
"飑";
"飒";
"飓";
"飔";
"飕";
"飗";
"飘";
"飙";
"飞";
"食";
"飧";
"飨";
"餍";
"餐";
"餮";
"饔";
"饕";
"饥";
"饧";
"饨";
"饩";
"饪";
"饫";
"饬";
"饭";
"饮";
"饯";
"饰";
"饱";
"饲";
"饳";
"饴";
"饵";
"饶";
"饷";
"饸";
"饹";
"饺";
"饻";
"饼";
"饽";
"饿";
"馁";
"馃";
"馄";
"馅";
"馆";
"馇";
"馈";
"馉";
"馊";
"馋";
"馌";
"馍";
"馏";
"馐";
"馑";
"馒";
"馓";
"馔";
"馕";
"首";
"馗";
"馘";
"香";
"馝";
"馞";
"馥";
"馧";
"馨";
"马";
"驭";
"驮";
"驯";
"驰";
"驱";
"驲";
"驳";
"驴";
"驵";
"驶";
"驷";
"驸";
"驹";
"驺";
"驻";
"驼";
"驽";
"驾";
"驿";
"骀";
"骁";
"骂";
"骃";
"骄";
"骅";
"骆";
"骇";
"骈";
"骉";
"骊";
"骋";
"验";
"骍";
"骎";
"骏";
"骐";
"骑";
"骒";
"骓";
"骕";
"骖";
"骗";
"骘";
"骙";
"骚";
"骛";
"骜";
"骝";
"骞";
"骟";
"骠";
"骡";
"骢";
"骣";
"骤";
"骥";
"骦";
"骧";
"骨";
"骰";
"骱";
"骶";
"骷";
"骸";
"骺";
"骼";
"髀";
"髁";
"髂";
"髃";
"髅";
"髋";
"髌";
"髎";
"髑";
"髓";
"高";
"髡";
"髢";
"髦";
"髫";
"髭";
"髯";
"髹";
"髻";
"髽";
"鬃";
"鬈";
"鬏";
"鬒";
"鬓";
"鬘";
"鬟";
"鬣";
"鬯";
"鬲";
"鬶";
"鬷";
"鬻";
"鬼";
"魁";
"魂";
"魃";
"魄";
"魅";
"魆";
"魇";
"魈";
"魉";
"魋";
"魍";
"魏";
"魑";
"魔";
"鱼";
"鱽";
"鱾";
"鱿";
"鲀";
"鲁";
"鲂";
"鲃";
"鲅";
"鲆";
"鲇";
"鲈";
"鲉";
"鲊";
"鲋";
"鲌";
"鲍";
"鲎";
"鲏";
"鲐";
"鲑";
"鲒";
"鲔";
"鲕";
"鲖";
"鲗";
"鲘";
"鲙";
"鲚";
"鲛";
"鲜";
"鲝";
"鲞";
"鲟";
"鲠";
"鲡";
"鲢";
"鲣";
"鲤";
"鲥";
"鲦";
"鲧";
"鲨";
"鲩";
"鲪";
"鲫";
"鲬";
"鲭";
"鲮";
"鲯";
"鲰";
"鲱";
"鲲";
"鲳";
"鲴";
"鲵";
"鲷";
"鲸";
"鲹";
"鲺";
"鲻";
"鲼";
"鲽";
"鲾";
"鲿";
"鳀";
"鳁";
"鳂";
"鳃";
"鳄";
"鳅";
"鳇";
"鳈";
"鳉";
"鳊";
"鳌";
"鳍";
"鳎";
"鳏";
"鳐";
"鳑";
"鳒";
"鳓";
"鳔";
"鳕";
"鳖";
"鳗";
"鳘";
"鳙";
"鳚";
"鳛";
"鳜";
"鳝";
"鳞";
"鳟";
"鳠";
"鳡";
"鳢";
"鳣";
"鳤";
"鸟";
"鸠";
"鸡";
"鸢";
"鸣";
"鸤";
"鸥";
"鸦";
"鸧";
"鸨";
"鸩";
"鸪";
"鸫";
"鸬";
"鸭";
"鸮";
"鸯";
"鸰";
"鸱";
"鸲";
"鸳";
"鸵";
"鸶";
"鸷";
"鸸";
"鸹";
"鸺";
"鸻";
"鸼";
"鸽";
"鸾";
"鸿";
"鹀";
"鹁";
"鹂";
"鹃";
"鹄";
"鹅";
"鹆";
"鹇";
"鹈";
"鹉";
"鹊";
"鹋";
"鹌";
"鹍";
"鹎";
"鹏";
"鹐";
"鹑";
"鹒";
"鹔";
"鹕";
"鹖";
"鹗";
"鹘";
"鹙";
"鹚";
"鹛";
"鹜";
"鹝";
"鹞";
"鹟";
"鹠";
"鹡";
"鹢";
"鹣";
"鹤";
"鹦";
"鹧";
"鹨";
"鹩";
"鹪";
"鹫";
"鹬";
"鹭";
"鹮";
"鹯";
"鹰";
"鹱";
"鹲";
"鹳";
"鹴";
"鹾";
"鹿";
"麀";
"麂";
"麇";
"麈";
"麋";
"麑";
"麒";
"麓";
"麖";
"麝";
"麟";
"麦";
"麸";
"麹";
"麻";
"麽";
"麾";
"黄";
"黇";
"黉";
"黍";
"黎";
"黏";
"黑";
"黔";
"默";
"黛";
"黜";
"黝";
"黟";
"黠";
"黡";
"黢";
"黥";
"黧";
"黩";
"黪";
"黯";
"黹";
"黻";
"黼";
"黾";
"鼋";
"鼍";
"鼎";
"鼐";
"鼒";
"鼓";
"鼗";
"鼙";
"鼠";
"鼢";
"鼩";
"鼫";
"鼬";
"鼯";
"鼱";
"鼷";
"鼹";
"鼻";
"鼽";
"鼾";
"齁";
"齇";
"齉";
"齐";
"齑";
"齿";
"龀";
"龁";
"龂";
"龃";
"龄";
"龅";
"龆";
"龇";
"龈";
"龉";
"龊";
"龋";
"龌";
"龙";
"龚";
"龛";
"龟";
"龠";
"龢";
"鿍";
"鿎";
"鿏";
"㑇";
"㑊";
"㕮";
"㘎";
"㙍";
"㙘";
"㙦";
"㛃";
"㛚";
"㛹";
"㟃";
"㠇";
"㠓";
"㤘";
"㥄";
"㧐";
"㧑";
"㧟";
"㫰";
"㬊";
"㬎";
"㬚";
"㭎";
"㭕";
"㮾";
"㰀";
"㳇";
"㳘";
"㳚";
"㴔";
"㵐";
"㶲";
"㸆";
"㸌";
"㺄";
"㻬";
"㽏";
"㿠";
"䁖";
"䂮";
"䃅";
"䃎";
"䅟";
"䌹";
"䎃";
"䎖";
"䏝";
"䏡";
"䏲";
"䐃";
"䓖";
"䓛";
"䓨";
"䓫";
"䓬";
"䗖";
"䗛";
"䗪";
"䗴";
"䜣";
"䝙";
"䢺";
"䢼";
"䣘";
"䥽";
"䦃";
"䲟";
"䲠";
"䲢";
"䴓";
"䴔";
"䴕";
"䴖";
"䴗";
"䴘";
"䴙";
"䶮";
"𠅤";
"𠙶";
"𠳐";
"𡎚";
"𡐓";
"𣗋";
"𣲗";
"𣲘";
"𣸣";
"𤧛";
"𤩽";
"𤫉";
"𥔲";
"𥕢";
"𥖨";
"𥻗";
"𦈡";
"𦒍";
"𦙶";
"𦝼";
"𦭜";
"𦰡";
"𧿹";
"𨐈";
"𨙸";
"𨚕";
"𨟠";
"𨭉";
"𨱇";
"𨱏";
"𨱑";
"𨱔";
"𨺙";
"𩽾";
"𩾃";
"𩾌";
"𪟝";
"𪣻";
"𪤗";
"𪨰";
"𪨶";
"𪩘";
"𪾢";
"𫄧";
"𫄨";
"𫄷";
"𫄸";
"𫇭";
"𫌀";
"𫍣";
"𫍯";
"𫍲";
"𫍽";
"𫐄";
"𫐐";
"𫐓";
"𫑡";
"𫓧";
"𫓯";
"𫓶";
"𫓹";
"𫔍";
"𫔎";
"𫔶";
"𫖮";
"𫖯";
"𫖳";
"𫗧";
"𫗴";
"𫘜";
"𫘝";
"𫘦";
"𫘧";
"𫘨";
"𫘪";
"𫘬";
"𫚕";
"𫚖";
"𫚭";
"𫛭";
"𫞩";
"𫟅";
"𫟦";
"𫟹";
"𫟼";
"𫠆";
"𫠊";
"𫠜";
"𫢸";
"𫫇";
"𫭟";
"𫭢";
"𫭼";
"𫮃";
"𫰛";
"𫵷";
"𫶇";
"𫷷";
"𫸩";
"𬀩";
"𬀪";
"𬂩";
"𬃊";
"𬇕";
"𬇙";
"𬇹";
"𬉼";
"𬊈";
"𬊤";
"𬌗";
"𬍛";
"𬍡";
"𬍤";
"𬒈";
"𬒔";
"𬒗";
"𬕂";
"𬘓";
"𬘘";
"𬘡";
"𬘩";
"𬘫";
"𬘬";
"𬘭";
"𬘯";
"𬙂";
"𬙊";
"𬙋";
"𬜬";
"𬜯";
"𬞟";
"𬟁";
"𬟽";
"𬣙";
"𬣞";
"𬣡";
"𬣳";
"𬤇";
"𬤊";
"𬤝";
"𬨂";
"𬨎";
"𬩽";
"𬪩";
"𬬩";
"𬬭";
"𬬮";
"𬬱";
"𬬸";
"𬬹";
"𬬻";
"𬬿";
"𬭁";
"𬭊";
"𬭎";
"𬭚";
"𬭛";
"𬭤";
"𬭩";
"𬭬";
"𬭯";
"𬭳";
"𬭶";
"𬭸";
"𬭼";
"𬮱";
"𬮿";
"𬯀";
"𬯎";
"𬱖";
"𬱟";
"𬳵";
"𬳶";
"𬳽";
"𬳿";
"𬴂";
"𬴃";
"𬴊";
"𬶋";
"𬶍";
"𬶏";
"𬶐";
"𬶟";
"𬶠";
"𬶨";
"𬶭";
"𬶮";
"𬷕";
"𬸘";
"𬸚";
"𬸣";
"𬸦";
"𬸪";
"𬹼";
"𬺈";
"𬺓"
].
(** tn/chinese/data/char/fullwidth_to_halfwidth.tsv *)
Definition zh_tn_char_fullwidth_to_halfwidth : list string := [
"，	,";
"。	.";
"．	.";
"“	""";
"”	""";
"！	!";
"＂	""";
"＃	#";
"％	%";
"＆	&";
"＇	'";
"（	(";
"）	)";
"＊	*";
"＋	+";
"－	-";
"／	/";
"：	:";
"；	;";
"＜	<";
"＝	=";
"＞	>";
"？	?";
"＠	@";
"＼	\";
"＾	^";
"＿	_";
"｀	`";
"｛	{";
"｜	|";
"｝	}";
"～	~";
"＄	$";
"０	0";
"１	1";
"２	2";
"３	3";
"４	4";
"５	5";
"６	6";
"７	7";
"８	8";
"９	9";
"ａ	a";
"Ａ	A";
"ｂ	b";
"Ｂ	B";
"ｃ	c";
"Ｃ	C";
"ｄ	d";
"Ｄ	D";
"ｅ	e";
"Ｅ	E";
"ｆ	f";
"Ｆ	F";
"ｇ	g";
"Ｇ	G";
"ｈ	h";
"Ｈ	H";
"ｉ	i";
"Ｉ	I";
"ｊ	j";
"Ｊ	J";
"ｋ	k";
"Ｋ	K";
"ｌ	l";
"Ｌ	L";
"ｍ	m";
"Ｍ	M";
"ｎ	n";
"Ｎ	N";
"ｏ	o";
"Ｏ	O";
"ｐ	p";
"Ｐ	P";
"ｑ	q";
"Ｑ	Q";
"ｒ	r";
"Ｒ	R";
"ｓ	s";
"Ｓ	S";
"ｔ	t";
"Ｔ	T";
"ｕ	u";
"Ｕ	U";
"ｖ	v";
"Ｖ	V";
"ｗ	w";
"Ｗ	W";
"ｘ	x";
"Ｘ	X";
"ｙ	y";
"Ｙ	Y";
"ｚ	z";
"Ｚ	Z"
].
(** tn/chinese/data/char/punctuations_zh.tsv *)
Definition zh_tn_char_punctuations_zh : list string := [
"–";
"—";
"‘";
"’";
"‛";
"“";
"”";
"„";
"‟";
"…";
"‧";
"、";
"。";
"〃";
"《";
"》";
"「";
"」";
"『";
"』";
"【";
"】";
"〔";
"〕";
"〖";
"〗";
"〘";
"〙";
"〚";
"〛";
"〜";
"〝";
"〞";
"〟";
"〰";
"﹏";
"！";
"＂";
"＃";
"％";
"＆";
"＇";
"（";
"）";
"＊";
"＋";
"，";
"－";
"／";
"：";
"；";
"＜";
"＝";
"＞";
"？";
"＠";
"［";
"＼";
"］";
"＾";
"＿";
"｀";
"｛";
"｜";
"｝";
"～";
"｟";
"｠";
"｡";
"｢";
"｣";
"､";
"＄"
].
(** tn/chinese/data/char/traditional_to_simple.tsv *)
Definition zh_tn_char_traditional_to_simple : list string := [
"丟	丢";
"並	并";
"乗	乘";
"乹	乾";
"亁	乾";
"亂	乱";
"亙	亘";
"亞	亚";
"亯	享";
"亱	夜";
"亷	廉";
"亾	亡";
"伕	夫";
"佀	似";
"佇	伫";
"佈	布";
"佔	占";
"併	并";
"來	来";
"侖	仑";
"侶	侣";
"侷	局";
"俁	俣";
"係	系";
"俛	俯";
"俠	侠";
"倀	伥";
"倆	俩";
"倉	仓";
"個	个";
"倐	倏";
"們	们";
"倖	幸";
"倣	仿";
"倫	伦";
"倸	睬";
"偉	伟";
"偘	侃";
"偪	逼";
"側	侧";
"偵	侦";
"偸	偷";
"偺	咱";
"偽	伪";
"傑	杰";
"傖	伧";
"傘	伞";
"備	备";
"傚	效";
"傢	家";
"傭	佣";
"傯	偬";
"傳	传";
"傴	伛";
"債	债";
"傷	伤";
"傾	倾";
"僂	偻";
"僅	仅";
"僉	佥";
"僊	仙";
"僑	侨";
"僕	仆";
"僞	伪";
"僥	侥";
"僨	偾";
"僱	雇";
"價	价";
"儀	仪";
"儁	俊";
"儂	侬";
"億	亿";
"儅	当";
"儈	侩";
"儉	俭";
"儐	傧";
"儔	俦";
"儕	侪";
"儘	尽";
"償	偿";
"優	优";
"儲	储";
"儵	倏";
"儷	俪";
"儸	罗";
"儹	攒";
"儺	傩";
"儻	傥";
"儼	俨";
"兇	凶";
"兌	兑";
"兎	兔";
"兒	儿";
"兗	兖";
"兠	兜";
"內	内";
"兩	两";
"冄	冉";
"冊	册";
"冐	冒";
"冪	幂";
"冺	泯";
"凃	涂";
"凍	冻";
"凜	凛";
"凟	渎";
"凣	凡";
"処	处";
"凱	凯";
"凴	凭";
"別	别";
"刦	劫";
"刧	劫";
"刪	删";
"刼	劫";
"剄	刭";
"則	则";
"剋	克";
"剛	刚";
"剝	剥";
"剮	剐";
"剳	札";
"剴	剀";
"創	创";
"剷	铲";
"剹	戮";
"劃	划";
"劄	札";
"劇	剧";
"劉	刘";
"劊	刽";
"劌	刿";
"劍	剑";
"劑	剂";
"劒	剑";
"効	效";
"勁	劲";
"勅	敕";
"勌	倦";
"動	动";
"勗	勖";
"務	务";
"勛	勋";
"勝	胜";
"勞	劳";
"勢	势";
"勣	绩";
"勦	剿";
"勱	劢";
"勳	勋";
"勵	励";
"勸	劝";
"勻	匀";
"匃	丐";
"匄	丐";
"匟	炕";
"匭	匦";
"匯	汇";
"匱	匮";
"匲	奁";
"匳	奁";
"匵	椟";
"區	区";
"協	协";
"卹	恤";
"卻	却";
"厀	膝";
"厙	厍";
"厛	厅";
"厠	厕";
"厤	历";
"厭	厌";
"厰	厂";
"厲	厉";
"厴	厣";
"參	参";
"叡	睿";
"叢	丛";
"吚	咿";
"吳	吴";
"呂	吕";
"呌	叫";
"呪	咒";
"咊	和";
"咼	呙";
"員	员";
"哢	咔";
"哶	咩";
"唄	呗";
"唕	唣";
"唚	吣";
"唫	吟";
"唸	念";
"啎	忤";
"問	问";
"啑	喋";
"啓	启";
"啗	啖";
"啞	哑";
"啟	启";
"啣	衔";
"喆	哲";
"喒	咱";
"喚	唤";
"喦	岩";
"喪	丧";
"喫	吃";
"喬	乔";
"單	单";
"喲	哟";
"嗁	啼";
"嗆	呛";
"嗇	啬";
"嗎	吗";
"嗚	呜";
"嗩	唢";
"嗶	哔";
"嘅	慨";
"嘆	叹";
"嘍	喽";
"嘑	呼";
"嘔	呕";
"嘖	啧";
"嘗	尝";
"嘜	唛";
"嘠	嘎";
"嘩	哗";
"嘮	唠";
"嘯	啸";
"嘰	叽";
"嘵	哓";
"嘸	呒";
"噁	恶";
"噅	咴";
"噉	啖";
"噓	嘘";
"噝	咝";
"噠	哒";
"噥	哝";
"噦	哕";
"噯	嗳";
"噲	哙";
"噴	喷";
"噸	吨";
"噹	当";
"嚀	咛";
"嚇	吓";
"嚌	哜";
"嚐	尝";
"嚕	噜";
"嚙	啮";
"嚥	咽";
"嚦	呖";
"嚨	咙";
"嚮	向";
"嚳	喾";
"嚴	严";
"嚶	嘤";
"嚻	嚣";
"囀	啭";
"囁	嗫";
"囂	嚣";
"囅	冁";
"囈	呓";
"囌	苏";
"囑	嘱";
"囘	回";
"囙	因";
"囪	囱";
"囬	回";
"囯	国";
"圅	函";
"圇	囵";
"國	国";
"圍	围";
"園	园";
"圓	圆";
"圖	图";
"團	团";
"坰	垧";
"坵	丘";
"坿	附";
"垜	垛";
"垵	埯";
"垻	坝";
"埛	炯";
"埜	野";
"埡	垭";
"埰	采";
"埳	坎";
"執	执";
"堃	坤";
"堅	坚";
"堊	垩";
"堖	垴";
"堘	塍";
"堝	埚";
"堦	阶";
"堯	尧";
"報	报";
"場	场";
"堿	碱";
"塊	块";
"塋	茔";
"塏	垲";
"塒	埘";
"塗	涂";
"塚	冢";
"塟	葬";
"塢	坞";
"塤	埙";
"塲	场";
"塵	尘";
"塹	堑";
"塼	砖";
"墊	垫";
"墖	塔";
"墜	坠";
"墝	硗";
"墪	墩";
"墮	堕";
"墰	坛";
"墳	坟";
"墻	墙";
"墾	垦";
"壄	野";
"壇	坛";
"壎	埙";
"壓	压";
"壘	垒";
"壙	圹";
"壚	垆";
"壜	坛";
"壞	坏";
"壟	垄";
"壠	垄";
"壢	坜";
"壩	坝";
"壯	壮";
"壺	壶";
"壻	婿";
"壽	寿";
"夀	寿";
"夘	帽";
"夠	够";
"夢	梦";
"夾	夹";
"奐	奂";
"奧	奥";
"奩	奁";
"奪	夺";
"奮	奋";
"妝	妆";
"妬	妒";
"妳	你";
"妷	侄";
"姉	姊";
"姍	姗";
"姙	妊";
"姦	奸";
"姪	侄";
"娛	娱";
"娬	妩";
"娿	婀";
"婁	娄";
"婦	妇";
"婬	淫";
"婭	娅";
"媧	娲";
"媮	偷";
"媯	妫";
"媼	媪";
"媽	妈";
"媿	愧";
"嫋	袅";
"嫗	妪";
"嫰	嫩";
"嫵	妩";
"嫺	娴";
"嫻	娴";
"嬀	妫";
"嬈	娆";
"嬋	婵";
"嬌	娇";
"嬙	嫱";
"嬝	袅";
"嬡	嫒";
"嬤	嬷";
"嬪	嫔";
"嬭	奶";
"嬰	婴";
"嬸	婶";
"嬾	懒";
"孃	娘";
"孌	娈";
"孫	孙";
"學	学";
"孼	孽";
"孿	孪";
"宂	冗";
"宮	宫";
"宼	寇";
"寀	采";
"寘	置";
"寢	寝";
"實	实";
"寧	宁";
"審	审";
"寫	写";
"寬	宽";
"寵	宠";
"寶	宝";
"尅	克";
"將	将";
"專	专";
"尋	寻";
"對	对";
"導	导";
"尲	尴";
"尷	尴";
"屆	届";
"屍	尸";
"屜	屉";
"屢	屡";
"層	层";
"屨	屦";
"屬	属";
"岅	坂";
"岡	冈";
"峝	峒";
"峩	峨";
"峯	峰";
"峴	岘";
"島	岛";
"峽	峡";
"崍	崃";
"崐	昆";
"崑	昆";
"崗	岗";
"崙	仑";
"崠	岽";
"崢	峥";
"崬	岽";
"崳	嵛";
"嵐	岚";
"嵗	岁";
"嶁	嵝";
"嶄	崭";
"嶇	岖";
"嶗	崂";
"嶠	峤";
"嶧	峄";
"嶴	岙";
"嶸	嵘";
"嶺	岭";
"嶼	屿";
"嶽	岳";
"巋	岿";
"巒	峦";
"巔	巅";
"巖	岩";
"巗	岩";
"巰	巯";
"巵	卮";
"巹	卺";
"帀	匝";
"帥	帅";
"師	师";
"帬	裙";
"帳	帐";
"帶	带";
"幀	帧";
"幃	帏";
"幑	徽";
"幗	帼";
"幘	帻";
"幙	幕";
"幟	帜";
"幣	币";
"幫	帮";
"幬	帱";
"幹	干";
"幾	几";
"庫	库";
"庻	庶";
"廁	厕";
"廂	厢";
"廄	厩";
"廈	厦";
"廐	厩";
"廕	荫";
"廚	厨";
"廝	厮";
"廟	庙";
"廠	厂";
"廡	庑";
"廢	废";
"廣	广";
"廩	廪";
"廬	庐";
"廳	厅";
"廵	巡";
"廹	迫";
"廻	回";
"廼	乃";
"弔	吊";
"弳	弪";
"張	张";
"強	强";
"彆	别";
"彈	弹";
"彊	强";
"彌	弥";
"彎	弯";
"彙	汇";
"彜	彝";
"彞	彝";
"彥	彦";
"彫	雕";
"彿	佛";
"徃	往";
"徑	径";
"從	从";
"徠	徕";
"復	复";
"徬	仿";
"徴	征";
"徹	彻";
"怱	匆";
"怳	恍";
"恆	恒";
"恠	怪";
"恡	吝";
"恥	耻";
"悅	悦";
"悤	匆";
"悳	德";
"悵	怅";
"悶	闷";
"悽	凄";
"惏	婪";
"惡	恶";
"惥	恿";
"惱	恼";
"惲	恽";
"惻	恻";
"愛	爱";
"愜	惬";
"愨	悫";
"愴	怆";
"愷	恺";
"愽	博";
"愾	忾";
"慂	恿";
"慄	栗";
"慇	殷";
"態	态";
"慍	愠";
"慘	惨";
"慙	惭";
"慚	惭";
"慟	恸";
"慣	惯";
"慤	悫";
"慪	怄";
"慫	怂";
"慮	虑";
"慳	悭";
"慴	慑";
"慶	庆";
"慼	戚";
"慾	欲";
"憂	忧";
"憇	憩";
"憊	惫";
"憐	怜";
"憑	凭";
"憒	愦";
"憚	惮";
"憤	愤";
"憫	悯";
"憮	怃";
"憲	宪";
"憶	忆";
"懃	勤";
"懇	恳";
"應	应";
"懌	怿";
"懍	懔";
"懕	恹";
"懞	蒙";
"懟	怼";
"懣	懑";
"懨	恹";
"懲	惩";
"懶	懒";
"懷	怀";
"懸	悬";
"懺	忏";
"懼	惧";
"懽	欢";
"懾	慑";
"戀	恋";
"戇	戆";
"戔	戋";
"戧	戗";
"戩	戬";
"戯	戏";
"戰	战";
"戲	戏";
"戶	户";
"戹	厄";
"戼	帽";
"扡	扦";
"拏	拿";
"拕	拖";
"挐	拿";
"挱	挲";
"挾	挟";
"挿	插";
"捄	救";
"捨	舍";
"捫	扪";
"捲	卷";
"掃	扫";
"掄	抡";
"掙	挣";
"掛	挂";
"採	采";
"掽	碰";
"揀	拣";
"揑	捏";
"揚	扬";
"換	换";
"揫	揪";
"揮	挥";
"揹	背";
"搆	构";
"搇	揿";
"搉	榷";
"損	损";
"搖	摇";
"搗	捣";
"搥	捶";
"搨	拓";
"搯	掏";
"搶	抢";
"搾	榨";
"摑	掴";
"摜	掼";
"摟	搂";
"摣	揸";
"摯	挚";
"摳	抠";
"摶	抟";
"摻	掺";
"撈	捞";
"撐	撑";
"撓	挠";
"撚	捻";
"撟	挢";
"撡	操";
"撣	掸";
"撥	拨";
"撦	扯";
"撫	抚";
"撲	扑";
"撳	揿";
"撻	挞";
"撾	挝";
"撿	捡";
"擁	拥";
"擄	掳";
"擇	择";
"擊	击";
"擋	挡";
"擔	担";
"擕	携";
"據	据";
"擠	挤";
"擡	抬";
"擣	捣";
"擧	举";
"擬	拟";
"擯	摈";
"擰	拧";
"擱	搁";
"擲	掷";
"擴	扩";
"擷	撷";
"擺	摆";
"擻	擞";
"擼	撸";
"擾	扰";
"攄	摅";
"攆	撵";
"攏	拢";
"攔	拦";
"攖	撄";
"攙	搀";
"攛	撺";
"攜	携";
"攝	摄";
"攢	攒";
"攣	挛";
"攤	摊";
"攩	挡";
"攪	搅";
"攬	揽";
"攷	考";
"敂	叩";
"敍	叙";
"敗	败";
"敘	叙";
"敭	扬";
"敵	敌";
"數	数";
"敺	驱";
"斂	敛";
"斃	毙";
"斕	斓";
"斬	斩";
"斮	斫";
"斲	斫";
"斵	斫";
"斷	断";
"旂	旗";
"旾	春";
"昇	升";
"昬	昏";
"昰	是";
"時	时";
"晉	晋";
"晝	昼";
"晳	晰";
"晻	暗";
"暈	晕";
"暉	晖";
"暎	映";
"暠	皓";
"暢	畅";
"暫	暂";
"暱	昵";
"曄	晔";
"曆	历";
"曇	昙";
"曉	晓";
"曏	向";
"曖	暧";
"曠	旷";
"曡	叠";
"曬	晒";
"書	书";
"會	会";
"朢	望";
"朧	胧";
"朶	朵";
"東	东";
"枏	楠";
"枒	丫";
"枴	拐";
"柟	楠";
"柵	栅";
"柹	柿";
"柺	拐";
"査	查";
"栁	柳";
"桮	杯";
"桺	柳";
"桿	杆";
"梔	栀";
"梘	枧";
"條	条";
"梟	枭";
"梱	捆";
"棃	梨";
"棄	弃";
"棊	棋";
"棖	枨";
"棗	枣";
"棟	栋";
"棧	栈";
"棬	桊";
"棲	栖";
"椀	碗";
"椏	桠";
"椗	碇";
"椶	棕";
"楊	杨";
"楓	枫";
"楥	楦";
"楨	桢";
"業	业";
"楳	梅";
"極	极";
"榦	干";
"榪	杩";
"榮	荣";
"榿	桤";
"槀	稿";
"槃	盘";
"構	构";
"槍	枪";
"槑	梅";
"槓	杠";
"槕	桌";
"槧	椠";
"槨	椁";
"槩	概";
"槳	桨";
"槼	规";
"樁	桩";
"樂	乐";
"樅	枞";
"樑	梁";
"樓	楼";
"標	标";
"樞	枢";
"樣	样";
"樷	丛";
"樸	朴";
"樹	树";
"樺	桦";
"橈	桡";
"橋	桥";
"橜	橛";
"機	机";
"橢	椭";
"橤	蕊";
"橫	横";
"橰	槔";
"檁	檩";
"檉	柽";
"檔	档";
"檜	桧";
"檝	楫";
"檢	检";
"檣	樯";
"檯	台";
"檳	槟";
"檸	柠";
"檻	槛";
"檾	苘";
"櫂	棹";
"櫃	柜";
"櫈	凳";
"櫓	橹";
"櫚	榈";
"櫛	栉";
"櫝	椟";
"櫞	橼";
"櫟	栎";
"櫥	橱";
"櫧	槠";
"櫨	栌";
"櫪	枥";
"櫫	橥";
"櫬	榇";
"櫳	栊";
"櫸	榉";
"櫺	棂";
"櫻	樱";
"欄	栏";
"權	权";
"欏	椤";
"欑	攒";
"欒	栾";
"欖	榄";
"欞	棂";
"欬	咳";
"欵	款";
"欽	钦";
"歎	叹";
"歐	欧";
"歗	啸";
"歛	敛";
"歟	欤";
"歡	欢";
"歲	岁";
"歷	历";
"歸	归";
"歿	殁";
"殀	夭";
"殘	残";
"殞	殒";
"殤	殇";
"殫	殚";
"殭	僵";
"殮	殓";
"殯	殡";
"殲	歼";
"殺	杀";
"殼	壳";
"毀	毁";
"毆	殴";
"毉	医";
"毘	毗";
"毧	绒";
"毬	球";
"毿	毵";
"氂	牦";
"氈	毡";
"氊	毡";
"氌	氇";
"氣	气";
"氫	氢";
"氬	氩";
"氳	氲";
"氷	冰";
"氹	凼";
"氾	泛";
"汎	泛";
"汙	污";
"汚	污";
"決	决";
"沍	冱";
"沒	没";
"沖	冲";
"況	况";
"泝	溯";
"洩	泄";
"洶	汹";
"浹	浃";
"涇	泾";
"涖	莅";
"涼	凉";
"淒	凄";
"淚	泪";
"淛	浙";
"淥	渌";
"淨	净";
"淩	凌";
"淪	沦";
"淵	渊";
"淶	涞";
"淺	浅";
"渙	涣";
"減	减";
"渦	涡";
"測	测";
"渾	浑";
"湊	凑";
"湞	浈";
"湣	愍";
"湧	涌";
"湯	汤";
"湻	淳";
"溈	沩";
"準	准";
"溝	沟";
"溫	温";
"溼	湿";
"滄	沧";
"滅	灭";
"滌	涤";
"滎	荥";
"滙	汇";
"滛	淫";
"滬	沪";
"滯	滞";
"滲	渗";
"滷	卤";
"滸	浒";
"滾	滚";
"滿	满";
"漁	渔";
"漚	沤";
"漢	汉";
"漣	涟";
"漬	渍";
"漲	涨";
"漵	溆";
"漸	渐";
"漿	浆";
"潁	颍";
"潄	漱";
"潑	泼";
"潔	洁";
"潙	沩";
"潛	潜";
"潟	舄";
"潤	润";
"潯	浔";
"潰	溃";
"潷	滗";
"潿	涠";
"澀	涩";
"澁	涩";
"澂	澄";
"澆	浇";
"澇	涝";
"澗	涧";
"澠	渑";
"澤	泽";
"澩	泶";
"澮	浍";
"澱	淀";
"濁	浊";
"濃	浓";
"濕	湿";
"濘	泞";
"濛	蒙";
"濟	济";
"濤	涛";
"濫	滥";
"濬	浚";
"濰	潍";
"濱	滨";
"濶	阔";
"濺	溅";
"濼	泺";
"濾	滤";
"瀅	滢";
"瀆	渎";
"瀉	泻";
"瀋	渖";
"瀏	浏";
"瀕	濒";
"瀘	泸";
"瀝	沥";
"瀟	潇";
"瀠	潆";
"瀦	潴";
"瀧	泷";
"瀨	濑";
"瀰	弥";
"瀲	潋";
"瀾	澜";
"灃	沣";
"灄	滠";
"灋	法";
"灑	洒";
"灕	漓";
"灘	滩";
"灝	灏";
"灣	湾";
"灤	滦";
"灧	滟";
"灩	滟";
"災	灾";
"炤	照";
"為	为";
"烏	乌";
"烖	灾";
"烴	烃";
"無	无";
"煆	煅";
"煇	辉";
"煉	炼";
"煑	煮";
"煒	炜";
"煖	暖";
"煗	暖";
"煙	烟";
"煢	茕";
"煥	焕";
"煩	烦";
"煬	炀";
"熒	荧";
"熗	炝";
"熱	热";
"熾	炽";
"燁	烨";
"燄	焰";
"燈	灯";
"燉	炖";
"燐	磷";
"燒	烧";
"燙	烫";
"燜	焖";
"營	营";
"燦	灿";
"燬	毁";
"燭	烛";
"燴	烩";
"燻	熏";
"燼	烬";
"燾	焘";
"燿	耀";
"爍	烁";
"爐	炉";
"爗	烨";
"爛	烂";
"爭	争";
"爲	为";
"爺	爷";
"爾	尔";
"牀	床";
"牆	墙";
"牋	笺";
"牎	窗";
"牐	闸";
"牓	榜";
"牕	窗";
"牘	牍";
"牠	它";
"牴	抵";
"牽	牵";
"犂	犁";
"犇	奔";
"犖	荦";
"犛	牦";
"犢	犊";
"犧	牺";
"狀	状";
"狥	徇";
"狹	狭";
"狽	狈";
"猂	悍";
"猙	狰";
"猨	猿";
"猶	犹";
"猻	狲";
"獁	犸";
"獃	呆";
"獄	狱";
"獅	狮";
"獋	嗥";
"獎	奖";
"獘	弊";
"獧	狷";
"獨	独";
"獪	狯";
"獫	猃";
"獰	狞";
"獲	获";
"獵	猎";
"獷	犷";
"獸	兽";
"獺	獭";
"獻	献";
"獼	猕";
"玀	猡";
"玅	妙";
"玆	兹";
"玨	珏";
"珎	珍";
"珮	佩";
"現	现";
"琍	璃";
"琯	管";
"琱	雕";
"琹	琴";
"琺	珐";
"琿	珲";
"瑉	珉";
"瑋	玮";
"瑠	琉";
"瑣	琐";
"瑤	瑶";
"瑩	莹";
"瑪	玛";
"瑯	琅";
"璉	琏";
"璢	琉";
"璣	玑";
"璦	瑷";
"環	环";
"璽	玺";
"璿	璇";
"瓈	璃";
"瓊	琼";
"瓌	瑰";
"瓏	珑";
"瓔	璎";
"瓚	瓒";
"甌	瓯";
"甎	砖";
"甕	瓮";
"甖	罂";
"產	产";
"産	产";
"甦	苏";
"畊	耕";
"畝	亩";
"畢	毕";
"畧	略";
"畫	画";
"異	异";
"畱	留";
"當	当";
"疇	畴";
"疉	叠";
"疊	叠";
"疎	疏";
"疘	肛";
"疿	痱";
"痐	蛔";
"痙	痉";
"痠	酸";
"痳	淋";
"痺	痹";
"痾	疴";
"瘂	痖";
"瘉	愈";
"瘋	疯";
"瘍	疡";
"瘓	痪";
"瘖	喑";
"瘞	瘗";
"瘡	疮";
"瘧	疟";
"瘺	瘘";
"瘻	瘘";
"療	疗";
"癄	憔";
"癅	瘤";
"癆	痨";
"癇	痫";
"癉	瘅";
"癒	愈";
"癘	疠";
"癟	瘪";
"癡	痴";
"癢	痒";
"癤	疖";
"癥	症";
"癧	疬";
"癩	癞";
"癬	癣";
"癭	瘿";
"癮	瘾";
"癰	痈";
"癱	瘫";
"癲	癫";
"發	发";
"皁	皂";
"皚	皑";
"皜	皓";
"皰	疱";
"皷	鼓";
"皸	皲";
"皺	皱";
"盃	杯";
"盇	盍";
"盌	碗";
"盜	盗";
"盞	盏";
"盡	尽";
"監	监";
"盤	盘";
"盧	卢";
"盪	荡";
"眎	视";
"眡	视";
"眥	眦";
"眾	众";
"睏	困";
"睜	睁";
"睞	睐";
"睠	眷";
"瞇	眯";
"瞖	翳";
"瞘	眍";
"瞞	瞒";
"瞼	睑";
"矁	瞅";
"矇	蒙";
"矙	瞰";
"矚	瞩";
"矯	矫";
"矴	碇";
"砲	炮";
"硃	朱";
"硤	硖";
"硨	砗";
"硯	砚";
"硶	碜";
"碁	棋";
"碩	硕";
"碪	砧";
"碭	砀";
"碸	砜";
"確	确";
"碼	码";
"磚	砖";
"磣	碜";
"磧	碛";
"磯	矶";
"磽	硗";
"礎	础";
"礙	碍";
"礦	矿";
"礪	砺";
"礫	砾";
"礬	矾";
"礮	炮";
"礱	砻";
"祐	佑";
"祑	帙";
"祕	秘";
"祿	禄";
"禍	祸";
"禎	祯";
"禦	御";
"禩	祀";
"禪	禅";
"禮	礼";
"禰	祢";
"禱	祷";
"禿	秃";
"秈	籼";
"秌	秋";
"稅	税";
"稈	秆";
"稜	棱";
"稟	禀";
"稭	秸";
"種	种";
"稱	称";
"稺	稚";
"穀	谷";
"穅	糠";
"穉	稚";
"穌	稣";
"積	积";
"穎	颖";
"穡	穑";
"穢	秽";
"穨	颓";
"穩	稳";
"穫	获";
"穭	稆";
"穽	阱";
"窓	窗";
"窩	窝";
"窪	洼";
"窮	穷";
"窯	窑";
"窰	窑";
"窶	窭";
"窺	窥";
"竄	窜";
"竅	窍";
"竇	窦";
"竈	灶";
"竊	窃";
"竚	伫";
"竝	并";
"竢	俟";
"竪	竖";
"競	竞";
"筆	笔";
"筍	笋";
"筞	策";
"筦	管";
"筧	笕";
"筩	筒";
"筯	箸";
"筴	策";
"箇	个";
"箋	笺";
"箏	筝";
"箒	帚";
"箠	棰";
"節	节";
"範	范";
"築	筑";
"篋	箧";
"篛	箬";
"篠	筱";
"篤	笃";
"篩	筛";
"篳	筚";
"篹	纂";
"簀	箦";
"簍	篓";
"簑	蓑";
"簒	篡";
"簞	箪";
"簡	简";
"簣	篑";
"簫	箫";
"簮	簪";
"簷	檐";
"簽	签";
"簾	帘";
"籃	篮";
"籌	筹";
"籐	藤";
"籜	箨";
"籟	籁";
"籠	笼";
"籢	奁";
"籤	签";
"籥	钥";
"籩	笾";
"籪	簖";
"籬	篱";
"籮	箩";
"籲	吁";
"粃	秕";
"粇	糠";
"粦	磷";
"粧	妆";
"粬	曲";
"粰	麸";
"粵	粤";
"粺	稗";
"糉	粽";
"糝	糁";
"糞	粪";
"糢	模";
"糧	粮";
"糰	团";
"糲	粝";
"糴	籴";
"糶	粜";
"糾	纠";
"紀	纪";
"紂	纣";
"約	约";
"紅	红";
"紆	纡";
"紇	纥";
"紈	纨";
"紉	纫";
"紋	纹";
"納	纳";
"紐	纽";
"紓	纾";
"純	纯";
"紕	纰";
"紗	纱";
"紙	纸";
"級	级";
"紛	纷";
"紜	纭";
"紡	纺";
"紥	扎";
"紮	扎";
"細	细";
"紱	绂";
"紲	绁";
"紳	绅";
"紹	绍";
"紺	绀";
"紼	绋";
"紿	绐";
"絀	绌";
"終	终";
"絃	弦";
"組	组";
"絆	绊";
"絎	绗";
"絏	绁";
"結	结";
"絕	绝";
"絛	绦";
"絝	绔";
"絞	绞";
"絡	络";
"絢	绚";
"給	给";
"絨	绒";
"統	统";
"絲	丝";
"絳	绛";
"絹	绢";
"綁	绑";
"綃	绡";
"綆	绠";
"綈	绨";
"綉	绣";
"綏	绥";
"綑	捆";
"經	经";
"綜	综";
"綞	缍";
"綠	绿";
"綢	绸";
"綣	绻";
"綫	线";
"綬	绶";
"維	维";
"綰	绾";
"綱	纲";
"網	网";
"綳	绷";
"綴	缀";
"綵	彩";
"綸	纶";
"綹	绺";
"綺	绮";
"綻	绽";
"綽	绰";
"綾	绫";
"綿	绵";
"緄	绲";
"緇	缁";
"緊	紧";
"緋	绯";
"緍	缗";
"緐	繁";
"緒	绪";
"緔	绱";
"緗	缃";
"緘	缄";
"緙	缂";
"線	线";
"緜	绵";
"緝	缉";
"緞	缎";
"締	缔";
"緡	缗";
"緣	缘";
"緤	绁";
"緥	褓";
"緦	缌";
"編	编";
"緩	缓";
"緬	缅";
"緯	纬";
"緱	缑";
"緲	缈";
"練	练";
"緶	缏";
"緹	缇";
"緻	致";
"縂	总";
"縈	萦";
"縉	缙";
"縊	缢";
"縋	缒";
"縐	绉";
"縑	缣";
"縚	绦";
"縛	缚";
"縝	缜";
"縞	缟";
"縟	缛";
"縣	县";
"縧	绦";
"縫	缝";
"縭	缡";
"縮	缩";
"縯	演";
"縱	纵";
"縲	缧";
"縴	纤";
"縵	缦";
"縶	絷";
"縷	缕";
"縹	缥";
"總	总";
"績	绩";
"繃	绷";
"繅	缫";
"繆	缪";
"繈	襁";
"繒	缯";
"織	织";
"繕	缮";
"繖	伞";
"繙	翻";
"繚	缭";
"繞	绕";
"繡	绣";
"繢	缋";
"繦	襁";
"繩	绳";
"繪	绘";
"繫	系";
"繭	茧";
"繮	缰";
"繯	缳";
"繰	缲";
"繳	缴";
"繹	绎";
"繼	继";
"繽	缤";
"繾	缱";
"纈	缬";
"纊	纩";
"續	续";
"纍	累";
"纏	缠";
"纓	缨";
"纖	纤";
"纘	缵";
"纜	缆";
"缽	钵";
"缾	瓶";
"罇	樽";
"罈	坛";
"罋	瓮";
"罌	罂";
"罎	坛";
"罏	垆";
"罰	罚";
"罵	骂";
"罷	罢";
"罸	罚";
"羅	罗";
"羆	罴";
"羈	羁";
"羋	芈";
"羗	羌";
"羢	绒";
"羣	群";
"羥	羟";
"羨	羡";
"義	义";
"羶	膻";
"習	习";
"翫	玩";
"翶	翱";
"翹	翘";
"翺	翱";
"耑	端";
"耡	锄";
"耬	耧";
"耮	耢";
"聖	圣";
"聞	闻";
"聯	联";
"聰	聪";
"聲	声";
"聳	耸";
"聵	聩";
"聶	聂";
"職	职";
"聹	聍";
"聼	听";
"聽	听";
"聾	聋";
"肅	肃";
"肎	肯";
"肐	胳";
"肧	胚";
"胷	胸";
"脃	脆";
"脅	胁";
"脇	胁";
"脈	脉";
"脗	吻";
"脛	胫";
"脣	唇";
"脩	修";
"脫	脱";
"脹	胀";
"腎	肾";
"腖	胨";
"腡	脶";
"腦	脑";
"腫	肿";
"腳	脚";
"腸	肠";
"膁	肷";
"膃	腽";
"膚	肤";
"膠	胶";
"膩	腻";
"膽	胆";
"膾	脍";
"膿	脓";
"臉	脸";
"臋	臀";
"臍	脐";
"臏	膑";
"臒	癯";
"臕	膘";
"臘	腊";
"臙	胭";
"臚	胪";
"臝	裸";
"臟	脏";
"臠	脔";
"臥	卧";
"臨	临";
"臯	皋";
"臺	台";
"與	与";
"興	兴";
"舉	举";
"舊	旧";
"舖	铺";
"舘	馆";
"舩	船";
"艕	膀";
"艙	舱";
"艢	樯";
"艣	橹";
"艤	舣";
"艦	舰";
"艪	橹";
"艫	舻";
"艱	艰";
"艷	艳";
"艸	艹";
"芲	花";
"芻	刍";
"苧	苎";
"茘	荔";
"茲	兹";
"荊	荆";
"荳	豆";
"莊	庄";
"莖	茎";
"莢	荚";
"莧	苋";
"菑	灾";
"菓	果";
"華	华";
"菴	庵";
"萇	苌";
"萊	莱";
"萬	万";
"萲	萱";
"萵	莴";
"葉	叶";
"葒	荭";
"葠	参";
"葤	荮";
"葦	苇";
"葯	药";
"葷	荤";
"蒐	搜";
"蒓	莼";
"蒔	莳";
"蒞	莅";
"蒼	苍";
"蓀	荪";
"蓆	席";
"蓋	盖";
"蓡	参";
"蓧	莜";
"蓮	莲";
"蓯	苁";
"蓴	莼";
"蓽	荜";
"蔆	菱";
"蔔	卜";
"蔕	蒂";
"蔞	蒌";
"蔣	蒋";
"蔥	葱";
"蔦	茑";
"蔭	荫";
"蔴	麻";
"蔾	藜";
"蕁	荨";
"蕆	蒇";
"蕋	蕊";
"蕎	荞";
"蕒	荬";
"蕓	芸";
"蕕	莸";
"蕘	荛";
"蕚	萼";
"蕢	蒉";
"蕩	荡";
"蕪	芜";
"蕭	萧";
"蕷	蓣";
"蕿	萱";
"薈	荟";
"薊	蓟";
"薌	芗";
"薑	姜";
"薔	蔷";
"薙	剃";
"薟	莶";
"薦	荐";
"薩	萨";
"薺	荠";
"藍	蓝";
"藎	荩";
"藝	艺";
"藥	药";
"藪	薮";
"藶	苈";
"藷	薯";
"藹	蔼";
"藺	蔺";
"藼	萱";
"蘂	蕊";
"蘄	蕲";
"蘆	芦";
"蘇	苏";
"蘊	蕴";
"蘋	苹";
"蘐	萱";
"蘚	藓";
"蘞	蔹";
"蘢	茏";
"蘤	花";
"蘭	兰";
"蘺	蓠";
"蘿	萝";
"處	处";
"虖	呼";
"虛	虚";
"虜	虏";
"號	号";
"虧	亏";
"虯	虬";
"虵	蛇";
"蚘	蛔";
"蛕	蛔";
"蛺	蛱";
"蛻	蜕";
"蜆	蚬";
"蜋	螂";
"蜖	蛔";
"蜨	蝶";
"蜺	霓";
"蝕	蚀";
"蝟	猬";
"蝦	虾";
"蝨	虱";
"蝯	猿";
"蝳	玳";
"蝸	蜗";
"螄	蛳";
"螎	融";
"螘	蚁";
"螞	蚂";
"螡	蚊";
"螢	萤";
"螻	蝼";
"蟁	蚊";
"蟄	蛰";
"蟇	蟆";
"蟈	蝈";
"蟎	螨";
"蟣	虮";
"蟬	蝉";
"蟯	蛲";
"蟲	虫";
"蟶	蛏";
"蟻	蚁";
"蠅	蝇";
"蠆	虿";
"蠍	蝎";
"蠏	蟹";
"蠐	蛴";
"蠑	蝾";
"蠔	蚝";
"蠟	蜡";
"蠣	蛎";
"蠱	蛊";
"蠶	蚕";
"蠻	蛮";
"衆	众";
"衇	脉";
"衊	蔑";
"術	术";
"衕	同";
"衖	弄";
"衚	胡";
"衛	卫";
"衝	冲";
"衞	卫";
"衹	只";
"衺	邪";
"袞	衮";
"袠	帙";
"裊	袅";
"裌	夹";
"裏	里";
"補	补";
"裝	装";
"裠	裙";
"裡	里";
"裦	褒";
"製	制";
"複	复";
"褲	裤";
"褳	裢";
"褸	褛";
"褻	亵";
"襆	幞";
"襇	裥";
"襍	杂";
"襖	袄";
"襝	裣";
"襠	裆";
"襢	袒";
"襤	褴";
"襪	袜";
"襯	衬";
"襲	袭";
"覇	霸";
"覈	核";
"見	见";
"規	规";
"覓	觅";
"覔	觅";
"視	视";
"覘	觇";
"覜	眺";
"覡	觋";
"覦	觎";
"覩	睹";
"親	亲";
"覬	觊";
"覯	觏";
"覰	觑";
"覲	觐";
"覷	觑";
"覺	觉";
"覻	觑";
"覽	览";
"覿	觌";
"觀	观";
"觔	斤";
"觕	粗";
"觝	抵";
"觴	觞";
"觶	觯";
"觸	触";
"訁	讠";
"訂	订";
"訃	讣";
"計	计";
"訊	讯";
"訌	讧";
"討	讨";
"訏	吁";
"訐	讦";
"訓	训";
"訕	讪";
"訖	讫";
"託	托";
"記	记";
"訛	讹";
"訝	讶";
"訟	讼";
"訢	欣";
"訣	诀";
"訥	讷";
"訦	谌";
"訪	访";
"設	设";
"許	许";
"訴	诉";
"訶	诃";
"診	诊";
"註	注";
"証	证";
"詁	诂";
"詆	诋";
"詎	讵";
"詐	诈";
"詒	诒";
"詔	诏";
"評	评";
"詘	诎";
"詛	诅";
"詞	词";
"詠	咏";
"詡	诩";
"詢	询";
"詣	诣";
"試	试";
"詧	察";
"詩	诗";
"詫	诧";
"詬	诟";
"詭	诡";
"詮	诠";
"詰	诘";
"話	话";
"該	该";
"詳	详";
"詵	诜";
"詶	酬";
"詼	诙";
"詿	诖";
"誄	诔";
"誅	诛";
"誆	诓";
"誇	夸";
"誌	志";
"認	认";
"誑	诳";
"誒	诶";
"誕	诞";
"誖	悖";
"誘	诱";
"誚	诮";
"語	语";
"誠	诚";
"誡	诫";
"誣	诬";
"誤	误";
"誥	诰";
"誦	诵";
"誨	诲";
"說	说";
"説	说";
"誰	谁";
"課	课";
"誶	谇";
"誹	诽";
"誼	谊";
"調	调";
"諂	谄";
"諄	谆";
"談	谈";
"諉	诿";
"請	请";
"諍	诤";
"諏	诹";
"諐	愆";
"諑	诼";
"諒	谅";
"論	论";
"諗	谂";
"諛	谀";
"諜	谍";
"諞	谝";
"諠	喧";
"諡	谥";
"諢	诨";
"諤	谔";
"諦	谛";
"諧	谐";
"諫	谏";
"諭	谕";
"諮	谘";
"諱	讳";
"諳	谙";
"諶	谌";
"諷	讽";
"諸	诸";
"諺	谚";
"諼	谖";
"諾	诺";
"謀	谋";
"謁	谒";
"謂	谓";
"謄	誊";
"謅	诌";
"謊	谎";
"謌	歌";
"謎	谜";
"謐	谧";
"謔	谑";
"謖	谡";
"謗	谤";
"謙	谦";
"謚	谥";
"講	讲";
"謝	谢";
"謠	谣";
"謨	谟";
"謫	谪";
"謬	谬";
"謳	讴";
"謹	谨";
"謼	呼";
"謾	谩";
"譁	哗";
"譆	嘻";
"證	证";
"譌	讹";
"譎	谲";
"譏	讥";
"譔	撰";
"譖	谮";
"識	识";
"譙	谯";
"譚	谭";
"譜	谱";
"譟	噪";
"譫	谵";
"譭	毁";
"譯	译";
"議	议";
"譴	谴";
"護	护";
"譽	誉";
"譾	谫";
"讀	读";
"讁	谪";
"讅	审";
"變	变";
"讌	燕";
"讎	雠";
"讐	雠";
"讒	谗";
"讓	让";
"讕	谰";
"讖	谶";
"讚	赞";
"讛	呓";
"讜	谠";
"讞	谳";
"谿	溪";
"豈	岂";
"豎	竖";
"豐	丰";
"豔	艳";
"豬	猪";
"貍	狸";
"貓	猫";
"貛	獾";
"貝	贝";
"貞	贞";
"負	负";
"財	财";
"貢	贡";
"貧	贫";
"貨	货";
"販	贩";
"貪	贪";
"貫	贯";
"責	责";
"貯	贮";
"貰	贳";
"貲	赀";
"貳	贰";
"貴	贵";
"貶	贬";
"買	买";
"貸	贷";
"貺	贶";
"費	费";
"貼	贴";
"貽	贻";
"貿	贸";
"賀	贺";
"賁	贲";
"賂	赂";
"賃	赁";
"賄	贿";
"賅	赅";
"資	资";
"賈	贾";
"賉	恤";
"賊	贼";
"賍	赃";
"賑	赈";
"賒	赊";
"賓	宾";
"賔	宾";
"賕	赇";
"賚	赉";
"賛	赞";
"賜	赐";
"賞	赏";
"賠	赔";
"賡	赓";
"賢	贤";
"賣	卖";
"賤	贱";
"賦	赋";
"賧	赕";
"質	质";
"賫	赍";
"賬	账";
"賭	赌";
"賮	赆";
"賴	赖";
"賸	剩";
"賺	赚";
"賻	赙";
"購	购";
"賽	赛";
"賾	赜";
"贄	贽";
"贅	赘";
"贈	赠";
"贊	赞";
"贋	赝";
"贍	赡";
"贏	赢";
"贐	赆";
"贓	赃";
"贖	赎";
"贗	赝";
"贛	赣";
"贜	赃";
"趂	趁";
"趕	赶";
"趙	赵";
"趨	趋";
"趲	趱";
"跡	迹";
"跥	跺";
"跴	踩";
"跼	局";
"踐	践";
"踡	蜷";
"踫	碰";
"踰	逾";
"踴	踊";
"蹌	跄";
"蹏	蹄";
"蹕	跸";
"蹚	趟";
"蹟	迹";
"蹠	跖";
"蹣	蹒";
"蹤	踪";
"蹧	糟";
"蹵	蹴";
"蹺	跷";
"躉	趸";
"躊	踌";
"躋	跻";
"躍	跃";
"躑	踯";
"躒	跞";
"躓	踬";
"躕	蹰";
"躚	跹";
"躡	蹑";
"躥	蹿";
"躦	躜";
"躪	躏";
"躰	体";
"躳	躬";
"躶	裸";
"軀	躯";
"車	车";
"軋	轧";
"軌	轨";
"軍	军";
"軒	轩";
"軔	轫";
"軛	轭";
"軟	软";
"軤	轷";
"軫	轸";
"軲	轱";
"軸	轴";
"軹	轵";
"軺	轺";
"軻	轲";
"軼	轶";
"軾	轼";
"較	较";
"輅	辂";
"輇	辁";
"載	载";
"輊	轾";
"輒	辄";
"輓	挽";
"輔	辅";
"輕	轻";
"輛	辆";
"輜	辎";
"輝	辉";
"輞	辋";
"輟	辍";
"輥	辊";
"輦	辇";
"輩	辈";
"輪	轮";
"輭	软";
"輯	辑";
"輳	辏";
"輸	输";
"輻	辐";
"輾	辗";
"輿	舆";
"轂	毂";
"轄	辖";
"轅	辕";
"轆	辘";
"轉	转";
"轍	辙";
"轎	轿";
"轔	辚";
"轟	轰";
"轡	辔";
"轢	轹";
"轤	轳";
"辠	罪";
"辢	辣";
"辤	辞";
"辦	办";
"辭	辞";
"辮	辫";
"辯	辩";
"農	农";
"辳	农";
"迆	迤";
"迴	回";
"迺	乃";
"迻	移";
"逈	迥";
"逕	径";
"這	这";
"連	连";
"逩	奔";
"週	周";
"進	进";
"遊	游";
"運	运";
"過	过";
"達	达";
"違	违";
"遙	遥";
"遜	逊";
"遝	沓";
"遞	递";
"遠	远";
"遡	溯";
"適	适";
"遯	遁";
"遲	迟";
"遷	迁";
"選	选";
"遺	遗";
"遼	辽";
"邁	迈";
"還	还";
"邇	迩";
"邊	边";
"邏	逻";
"邐	逦";
"邨	村";
"郃	合";
"郟	郏";
"郤	郄";
"郵	邮";
"鄆	郓";
"鄉	乡";
"鄒	邹";
"鄔	邬";
"鄕	乡";
"鄖	郧";
"鄘	墉";
"鄧	邓";
"鄭	郑";
"鄰	邻";
"鄲	郸";
"鄴	邺";
"鄶	郐";
"鄺	邝";
"酈	郦";
"酧	酬";
"醃	腌";
"醕	醇";
"醖	酝";
"醜	丑";
"醞	酝";
"醫	医";
"醬	酱";
"醻	酬";
"醼	燕";
"釀	酿";
"釁	衅";
"釃	酾";
"釅	酽";
"釋	释";
"釐	厘";
"釓	钆";
"釔	钇";
"釕	钌";
"釗	钊";
"釘	钉";
"釙	钋";
"針	针";
"釣	钓";
"釤	钐";
"釦	扣";
"釧	钏";
"釩	钒";
"釬	焊";
"釵	钗";
"釷	钍";
"釹	钕";
"釺	钎";
"鈀	钯";
"鈁	钫";
"鈄	钭";
"鈅	钥";
"鈈	钚";
"鈉	钠";
"鈍	钝";
"鈎	钩";
"鈐	钤";
"鈑	钣";
"鈔	钞";
"鈕	钮";
"鈞	钧";
"鈡	钟";
"鈣	钙";
"鈥	钬";
"鈦	钛";
"鈧	钪";
"鈮	铌";
"鈰	铈";
"鈳	钶";
"鈴	铃";
"鈷	钴";
"鈸	钹";
"鈹	铍";
"鈺	钰";
"鈽	钸";
"鈾	铀";
"鈿	钿";
"鉀	钾";
"鉄	铁";
"鉅	钜";
"鉆	钻";
"鉈	铊";
"鉉	铉";
"鉋	刨";
"鉍	铋";
"鉑	铂";
"鉕	钷";
"鉗	钳";
"鉚	铆";
"鉛	铅";
"鉞	钺";
"鉢	钵";
"鉤	钩";
"鉦	钲";
"鉬	钼";
"鉭	钽";
"鉸	铰";
"鉺	铒";
"鉻	铬";
"鉿	铪";
"銀	银";
"銃	铳";
"銅	铜";
"銑	铣";
"銓	铨";
"銕	铁";
"銖	铢";
"銘	铭";
"銚	铫";
"銜	衔";
"銠	铑";
"銣	铷";
"銥	铱";
"銦	铟";
"銨	铵";
"銩	铥";
"銪	铕";
"銫	铯";
"銬	铐";
"銱	铞";
"銲	焊";
"銳	锐";
"銷	销";
"銹	锈";
"銻	锑";
"銼	锉";
"鋁	铝";
"鋃	锒";
"鋅	锌";
"鋇	钡";
"鋌	铤";
"鋏	铗";
"鋒	锋";
"鋜	镯";
"鋝	锊";
"鋟	锓";
"鋣	铘";
"鋤	锄";
"鋥	锃";
"鋦	锔";
"鋨	锇";
"鋪	铺";
"鋮	铖";
"鋯	锆";
"鋰	锂";
"鋱	铽";
"鋶	锍";
"鋸	锯";
"鋻	鉴";
"鋼	钢";
"錁	锞";
"錄	录";
"錆	锖";
"錇	锫";
"錈	锩";
"錐	锥";
"錒	锕";
"錕	锟";
"錘	锤";
"錙	锱";
"錚	铮";
"錛	锛";
"錟	锬";
"錠	锭";
"錢	钱";
"錦	锦";
"錨	锚";
"錫	锡";
"錮	锢";
"錯	错";
"錳	锰";
"錶	表";
"錸	铼";
"鍀	锝";
"鍁	锨";
"鍃	锪";
"鍆	钔";
"鍇	锴";
"鍊	炼";
"鍋	锅";
"鍍	镀";
"鍔	锷";
"鍘	铡";
"鍛	锻";
"鍤	锸";
"鍥	锲";
"鍩	锘";
"鍫	锹";
"鍬	锹";
"鍰	锾";
"鍵	键";
"鍶	锶";
"鍺	锗";
"鍼	针";
"鍾	钟";
"鎂	镁";
"鎄	锿";
"鎇	镅";
"鎊	镑";
"鎋	辖";
"鎖	锁";
"鎘	镉";
"鎚	锤";
"鎢	钨";
"鎣	蓥";
"鎦	镏";
"鎧	铠";
"鎩	铩";
"鎪	锼";
"鎬	镐";
"鎮	镇";
"鎰	镒";
"鎳	镍";
"鎵	镓";
"鎸	镌";
"鎿	镎";
"鏃	镞";
"鏇	旋";
"鏈	链";
"鏌	镆";
"鏍	镙";
"鏑	镝";
"鏗	铿";
"鏘	锵";
"鏚	戚";
"鏜	镗";
"鏝	镘";
"鏞	镛";
"鏟	铲";
"鏡	镜";
"鏢	镖";
"鏤	镂";
"鏨	錾";
"鏵	铧";
"鏷	镤";
"鏹	镪";
"鏽	锈";
"鐃	铙";
"鐋	铴";
"鐐	镣";
"鐒	铹";
"鐓	镦";
"鐔	镡";
"鐘	钟";
"鐙	镫";
"鐝	镢";
"鐠	镨";
"鐦	锎";
"鐧	锏";
"鐨	镄";
"鐫	镌";
"鐮	镰";
"鐲	镯";
"鐳	镭";
"鐵	铁";
"鐸	铎";
"鐺	铛";
"鐿	镱";
"鑄	铸";
"鑊	镬";
"鑌	镔";
"鑑	鉴";
"鑒	鉴";
"鑔	镲";
"鑛	矿";
"鑠	铄";
"鑣	镳";
"鑤	刨";
"鑥	镥";
"鑪	炉";
"鑭	镧";
"鑰	钥";
"鑲	镶";
"鑵	罐";
"鑷	镊";
"鑹	镩";
"鑼	锣";
"鑽	钻";
"鑾	銮";
"鑿	凿";
"钁	镢";
"長	长";
"門	门";
"閂	闩";
"閃	闪";
"閆	闫";
"閉	闭";
"開	开";
"閌	闶";
"閎	闳";
"閏	闰";
"閑	闲";
"閒	闲";
"間	间";
"閔	闵";
"閘	闸";
"閙	闹";
"閡	阂";
"関	关";
"閣	阁";
"閤	合";
"閥	阀";
"閨	闺";
"閩	闽";
"閫	阃";
"閬	阆";
"閭	闾";
"閱	阅";
"閲	阅";
"閶	阊";
"閹	阉";
"閻	阎";
"閼	阏";
"閽	阍";
"閾	阈";
"閿	阌";
"闃	阒";
"闆	板";
"闇	暗";
"闈	闱";
"闊	阔";
"闋	阕";
"闌	阑";
"闐	阗";
"闔	阖";
"闕	阙";
"闖	闯";
"闚	窥";
"關	关";
"闞	阚";
"闡	阐";
"闢	辟";
"闥	闼";
"阨	厄";
"阬	坑";
"阯	址";
"陗	峭";
"陘	陉";
"陝	陕";
"陞	升";
"陣	阵";
"陰	阴";
"陳	陈";
"陸	陆";
"陻	堙";
"陽	阳";
"隂	阴";
"隄	堤";
"隉	陧";
"隊	队";
"階	阶";
"隕	陨";
"隖	坞";
"際	际";
"隣	邻";
"隨	随";
"險	险";
"隱	隐";
"隴	陇";
"隷	隶";
"隸	隶";
"隻	只";
"雋	隽";
"雖	虽";
"雙	双";
"雛	雏";
"雜	杂";
"雝	雍";
"雞	鸡";
"離	离";
"難	难";
"雰	氛";
"雲	云";
"電	电";
"霑	沾";
"霛	灵";
"霤	溜";
"霧	雾";
"霽	霁";
"靂	雳";
"靄	霭";
"靈	灵";
"靚	靓";
"靜	静";
"靣	面";
"靦	腼";
"靨	靥";
"靭	韧";
"鞀	鼗";
"鞉	鼗";
"鞌	鞍";
"鞏	巩";
"鞦	秋";
"鞵	鞋";
"鞽	鞒";
"鞾	靴";
"韁	缰";
"韃	鞑";
"韆	千";
"韉	鞯";
"韋	韦";
"韌	韧";
"韓	韩";
"韙	韪";
"韜	韬";
"韝	鞴";
"韞	韫";
"韤	袜";
"韮	韭";
"韻	韵";
"響	响";
"頁	页";
"頂	顶";
"頃	顷";
"項	项";
"順	顺";
"頇	顸";
"須	须";
"頊	顼";
"頌	颂";
"頎	颀";
"頏	颃";
"預	预";
"頑	顽";
"頒	颁";
"頓	顿";
"頗	颇";
"領	领";
"頜	颌";
"頡	颉";
"頤	颐";
"頦	颏";
"頫	俯";
"頭	头";
"頰	颊";
"頷	颔";
"頸	颈";
"頹	颓";
"頻	频";
"頽	颓";
"顂	赖";
"顆	颗";
"顋	腮";
"題	题";
"額	额";
"顎	颚";
"顏	颜";
"顓	颛";
"顔	颜";
"願	愿";
"顙	颡";
"顛	颠";
"類	类";
"顢	颟";
"顥	颢";
"顦	憔";
"顧	顾";
"顫	颤";
"顬	颥";
"顯	显";
"顰	颦";
"顱	颅";
"顳	颞";
"顴	颧";
"風	风";
"颮	飑";
"颯	飒";
"颱	台";
"颳	刮";
"颶	飓";
"颺	扬";
"颼	飕";
"颿	帆";
"飃	飘";
"飄	飘";
"飆	飙";
"飇	飙";
"飈	飚";
"飛	飞";
"飜	翻";
"飢	饥";
"飩	饨";
"飪	饪";
"飫	饫";
"飭	饬";
"飯	饭";
"飱	飧";
"飲	饮";
"飴	饴";
"飼	饲";
"飽	饱";
"飾	饰";
"餃	饺";
"餅	饼";
"餈	糍";
"餉	饷";
"養	养";
"餌	饵";
"餑	饽";
"餒	馁";
"餓	饿";
"餘	余";
"餚	肴";
"餛	馄";
"餞	饯";
"餡	馅";
"餧	喂";
"館	馆";
"餬	糊";
"餱	糇";
"餳	饧";
"餵	喂";
"餷	馇";
"餹	糖";
"餻	糕";
"餼	饩";
"餽	馈";
"餾	馏";
"餿	馊";
"饃	馍";
"饅	馒";
"饈	馐";
"饉	馑";
"饊	馓";
"饋	馈";
"饌	馔";
"饍	膳";
"饑	饥";
"饒	饶";
"饗	飨";
"饜	餍";
"饝	馍";
"饞	馋";
"饢	馕";
"馬	马";
"馭	驭";
"馮	冯";
"馱	驮";
"馳	驰";
"馴	驯";
"駁	驳";
"駐	驻";
"駑	驽";
"駒	驹";
"駔	驵";
"駕	驾";
"駘	骀";
"駙	驸";
"駛	驶";
"駝	驼";
"駟	驷";
"駡	骂";
"駢	骈";
"駭	骇";
"駮	驳";
"駱	骆";
"駿	骏";
"騁	骋";
"騅	骓";
"騍	骒";
"騎	骑";
"騏	骐";
"騐	验";
"騖	骛";
"騗	骗";
"騙	骗";
"騣	鬃";
"騫	骞";
"騭	骘";
"騮	骝";
"騰	腾";
"騶	驺";
"騷	骚";
"騸	骟";
"騾	骡";
"驀	蓦";
"驁	骜";
"驂	骖";
"驃	骠";
"驄	骢";
"驅	驱";
"驊	骅";
"驍	骁";
"驏	骣";
"驕	骄";
"驗	验";
"驘	骡";
"驚	惊";
"驛	驿";
"驟	骤";
"驢	驴";
"驤	骧";
"驥	骥";
"驪	骊";
"骽	腿";
"骾	鲠";
"髏	髅";
"髒	脏";
"體	体";
"髕	髌";
"髖	髋";
"髣	仿";
"髩	鬓";
"髮	发";
"鬀	剃";
"鬁	疬";
"鬆	松";
"鬉	鬃";
"鬍	胡";
"鬚	须";
"鬢	鬓";
"鬥	斗";
"鬦	斗";
"鬧	闹";
"鬨	哄";
"鬩	阋";
"鬭	斗";
"鬮	阄";
"鬱	郁";
"魎	魉";
"魘	魇";
"魚	鱼";
"魯	鲁";
"魴	鲂";
"魷	鱿";
"鮁	鲅";
"鮃	鲆";
"鮌	鲧";
"鮎	鲇";
"鮐	鲐";
"鮑	鲍";
"鮒	鲋";
"鮚	鲒";
"鮞	鲕";
"鮪	鲔";
"鮫	鲛";
"鮭	鲑";
"鮮	鲜";
"鯀	鲧";
"鯁	鲠";
"鯇	鲩";
"鯉	鲤";
"鯊	鲨";
"鯔	鲻";
"鯖	鲭";
"鯗	鲞";
"鯛	鲷";
"鯝	鲴";
"鯡	鲱";
"鯢	鲵";
"鯤	鲲";
"鯧	鲳";
"鯨	鲸";
"鯪	鲮";
"鯫	鲰";
"鯰	鲶";
"鯴	鲺";
"鯽	鲫";
"鯿	鳊";
"鰈	鲽";
"鰉	鳇";
"鰌	鳅";
"鰍	鳅";
"鰐	鳄";
"鰒	鳆";
"鰓	鳃";
"鰠	鳋";
"鰣	鲥";
"鰥	鳏";
"鰨	鳎";
"鰩	鳐";
"鰭	鳍";
"鰱	鲢";
"鰲	鳌";
"鰳	鳓";
"鰵	鳘";
"鰷	鲦";
"鰹	鲣";
"鰻	鳗";
"鰾	鳔";
"鱅	鳙";
"鱈	鳕";
"鱉	鳖";
"鱒	鳟";
"鱓	鳝";
"鱔	鳝";
"鱖	鳜";
"鱗	鳞";
"鱘	鲟";
"鱝	鲼";
"鱟	鲎";
"鱧	鳢";
"鱭	鲚";
"鱷	鳄";
"鱸	鲈";
"鱺	鲡";
"鳥	鸟";
"鳧	凫";
"鳩	鸠";
"鳳	凤";
"鳴	鸣";
"鳶	鸢";
"鴆	鸩";
"鴇	鸨";
"鴈	雁";
"鴉	鸦";
"鴕	鸵";
"鴛	鸳";
"鴝	鸲";
"鴟	鸱";
"鴣	鸪";
"鴦	鸯";
"鴨	鸭";
"鴯	鸸";
"鴰	鸹";
"鴻	鸿";
"鴿	鸽";
"鵂	鸺";
"鵑	鹃";
"鵒	鹆";
"鵓	鹁";
"鵜	鹈";
"鵝	鹅";
"鵞	鹅";
"鵠	鹄";
"鵡	鹉";
"鵪	鹌";
"鵬	鹏";
"鵯	鹎";
"鵰	雕";
"鵲	鹊";
"鵶	鸦";
"鶇	鸫";
"鶉	鹑";
"鶓	鹋";
"鶘	鹕";
"鶚	鹗";
"鶥	鹛";
"鶩	鹜";
"鶯	莺";
"鶴	鹤";
"鶻	鹘";
"鶼	鹣";
"鶿	鹚";
"鷀	鹚";
"鷂	鹞";
"鷄	鸡";
"鷓	鹧";
"鷗	鸥";
"鷙	鸷";
"鷚	鹨";
"鷥	鸶";
"鷦	鹪";
"鷯	鹩";
"鷰	燕";
"鷲	鹫";
"鷳	鹇";
"鷴	鹇";
"鷸	鹬";
"鷹	鹰";
"鷺	鹭";
"鷼	鹇";
"鸌	鹱";
"鸎	莺";
"鸕	鸬";
"鸚	鹦";
"鸛	鹳";
"鸝	鹂";
"鸞	鸾";
"鹵	卤";
"鹹	咸";
"鹺	鹾";
"鹼	碱";
"鹽	盐";
"麅	狍";
"麐	麟";
"麗	丽";
"麞	獐";
"麤	粗";
"麥	麦";
"麩	麸";
"麪	面";
"麯	曲";
"麵	面";
"麼	么";
"黃	黄";
"黌	黉";
"點	点";
"黨	党";
"黲	黪";
"黴	霉";
"黷	黩";
"黽	黾";
"黿	鼋";
"鼃	蛙";
"鼇	鳌";
"鼈	鳖";
"鼉	鼍";
"鼕	冬";
"鼴	鼹";
"齇	齄";
"齊	齐";
"齋	斋";
"齎	赍";
"齏	齑";
"齒	齿";
"齔	龀";
"齙	龅";
"齜	龇";
"齟	龃";
"齠	龆";
"齡	龄";
"齣	出";
"齦	龈";
"齧	啮";
"齪	龊";
"齬	龉";
"齲	龋";
"齶	腭";
"齷	龌";
"龍	龙";
"龐	庞";
"龔	龚";
"龕	龛";
"龜	龟";
"後	后"
].
(** tn/chinese/data/date/d.tsv *)
Definition zh_tn_date_d : list string := [
"1	一日";
"2	二日";
"3	三日";
"4	四日";
"5	五日";
"6	六日";
"7	七日";
"8	八日";
"9	九日";
"10	十日";
"11	十一日";
"12	十二日";
"13	十三日";
"14	十四日";
"15	十五日";
"16	十六日";
"17	十七日";
"18	十八日";
"19	十九日";
"20	二十日";
"21	二十一日";
"22	二十二日";
"23	二十三日";
"24	二十四日";
"25	二十五日";
"26	二十六日";
"27	二十七日";
"28	二十八日";
"29	二十九日";
"30	三十日";
"31	三十一日"
].
(** tn/chinese/data/date/dd.tsv *)
Definition zh_tn_date_dd : list string := [
"01	一日";
"02	二日";
"03	三日";
"04	四日";
"05	五日";
"06	六日";
"07	七日";
"08	八日";
"09	九日";
"10	十日";
"11	十一日";
"12	十二日";
"13	十三日";
"14	十四日";
"15	十五日";
"16	十六日";
"17	十七日";
"18	十八日";
"19	十九日";
"20	二十日";
"21	二十一日";
"22	二十二日";
"23	二十三日";
"24	二十四日";
"25	二十五日";
"26	二十六日";
"27	二十七日";
"28	二十八日";
"29	二十九日";
"30	三十日";
"31	三十一日"
].
(** tn/chinese/data/date/m.tsv *)
Definition zh_tn_date_m : list string := [
"1	一月";
"2	二月";
"3	三月";
"4	四月";
"5	五月";
"6	六月";
"7	七月";
"8	八月";
"9	九月";
"10	十月";
"11	十一月";
"12	十二月"
].
(** tn/chinese/data/date/mm.tsv *)
Definition zh_tn_date_mm : list string := [
"01	一月";
"02	二月";
"03	三月";
"04	四月";
"05	五月";
"06	六月";
"07	七月";
"08	八月";
"09	九月";
"10	十月";
"11	十一月";
"12	十二月"
].
(** tn/chinese/data/default/blacklist.tsv *)
Definition zh_tn_default_blacklist : list string := [
"呃";
"啊"
].
(** tn/chinese/data/default/whitelist.tsv *)
Definition zh_tn_default_whitelist : list string := [
"B2B	B to B";
"M.V.P	M V P";
"O2O	O to O";
"P2P	P to P";
"BY2	BY TWO";
"By2	By Two";
"10后	一零后";
"00后	零零后";
"90后	九零后";
"80后	八零后";
"70后	七零后";
"60后	六零后";
"50后	五零后"
].
(** tn/chinese/data/erhua/whitelist.tsv *)
Definition zh_tn_erhua_whitelist : list string := [
"儿女";
"儿子";
"儿孙";
"女儿";
"儿媳";
"妻儿";
"胎儿";
"婴儿";
"新生儿";
"婴幼儿";
"幼儿";
"少儿";
"小儿";
"儿歌";
"儿童";
"儿科";
"托儿所";
"孤儿";
"儿戏";
"儿化";
"台儿庄";
"鹿儿岛";
"正儿八经";
"吊儿郎当";
"生儿育女";
"托儿带女";
"养儿防老";
"痴儿呆女";
"佳儿佳妇";
"儿怜兽扰";
"儿无常父";
"儿不嫌母丑";
"儿行千里母担忧";
"儿大不由爷";
"苏乞儿";
"容祖儿"
].
(** tn/chinese/data/math/operator.tsv *)
Definition zh_tn_math_operator : list string := [
"×	乘";
"-	减";
"+	加";
"=	等于";
"÷	除";
"≥	大于等于";
"≤	小于等于";
">=	大于等于";
"<=	小于等于"
].
(** tn/chinese/data/math/operator_unambiguous.tsv *)
Definition zh_tn_math_operator_unambiguous : list string := [
"×	乘";
"÷	除";
"≥	大于等于";
"≤	小于等于";
">=	大于等于";
"<=	小于等于"
].
(** tn/chinese/data/measure/units_en.tsv *)
Definition zh_tn_measure_units_en : list string := [
"amu	原子质量";
"bar	巴";
"cm2	平方厘米";
"cm²	平方厘米";
"cm3	立方厘米";
"cm³	立方厘米";
"cm	厘米";
"cwt	美担";
"°c	摄氏度";
"°C	摄氏度";
"℃	摄氏度";
"db	分贝";
"dm3	立方分米";
"dm³	立方分米";
"dm	分米";
"ds	毫秒";
"ft	英尺";
"°f	华氏度";
"°F	华氏度";
"℉	华氏度";
"gb	吉字节";
"ghz	吉赫兹";
"gpa	吉帕斯卡";
"gwh	吉瓦时";
"gw	吉瓦";
"gy	戈瑞";
"h	小时";
"ha	公顷";
"hz	赫兹";
"kbps	千比特每秒";
"kcal	千卡";
"kgf	千克力";
"kg	千克";
"khz	千赫兹";
"km2	平方千米";
"km²	平方千米";
"km	公里";
"kpa	千帕";
"kwh	千瓦时";
"kw	千瓦";
"kW	千瓦";
"lbs	磅";
"lb	磅";
"L	升";
"m2	平方米";
"m²	平方米";
"m3	立方米";
"m³	立方米";
"mbps	兆比特每秒";
"mg	毫克";
"mhz	兆赫兹";
"mi2	平方英里";
"mi²	平方英里";
"min	分钟";
"mi	英里";
"ml	毫升";
"mm2	平方毫米";
"mm²	平方毫米";
"mm	毫米";
"mol	摩尔";
"mpa	兆帕";
"mph	英里每小时";
"ms	毫秒";
"mv	毫伏";
"mw	毫瓦";
"m	米";
"ng	纳克";
"nm	纳米";
"ns	纳秒";
"ºc	摄氏度";
"ºC	摄氏度";
"oz	盎司";
"º	度";
"pa	帕斯卡";
"pg	皮克";
"ps	皮秒";
"rad	弧度";
"rpm	转每分";
"sq ft	平方英尺";
"sq mi	平方英里";
"sv	系沃特";
"s	秒";
"tb	太字节";
"tj	万亿焦耳";
"tl	台两";
"v	伏特";
"yd	码";
"μg	微克";
"μm	微米";
"μs	微秒";
"ω	欧米茄";
"°	度"
].
(** tn/chinese/data/measure/units_zh.tsv *)
Definition zh_tn_measure_units_zh : list string := [
"年来";
"年前";
"年后";
"年内";
"年之前";
"年之后";
"平方";
"平米";
"立方";
"公里";
"票";
"多";
"余";
"几";
"集";
"档";
"具";
"趟";
"人";
"篇";
"帧";
"把";
"封";
"艘";
"套";
"段";
"号";
"匹";
"张";
"座";
"回";
"场";
"尾";
"条";
"个";
"首";
"阙";
"阵";
"网";
"炮";
"顶";
"丘";
"棵";
"只";
"支";
"袭";
"辆";
"挑";
"担";
"颗";
"壳";
"窠";
"曲";
"墙";
"群";
"腔";
"砣";
"座";
"客";
"贯";
"扎";
"捆";
"刀";
"令";
"手";
"罗";
"坡";
"山";
"岭";
"江";
"溪";
"钟";
"队";
"单";
"双";
"对";
"口";
"头";
"脚";
"板";
"跳";
"枝";
"件";
"贴";
"针";
"线";
"管";
"名";
"位";
"身";
"堂";
"课";
"本";
"页";
"家";
"户";
"层";
"丝";
"毫";
"厘";
"分";
"钱";
"两";
"斤";
"担";
"铢";
"石";
"钧";
"锱";
"忽";
"克";
"毫";
"厘";
"分";
"寸";
"尺";
"丈";
"里";
"寻";
"常";
"铺";
"程";
"米";
"撮";
"勺";
"合";
"升";
"斗";
"石";
"盘";
"碗";
"碟";
"叠";
"桶";
"笼";
"盆";
"盒";
"杯";
"钟";
"斛";
"锅";
"簋";
"篮";
"盘";
"桶";
"罐";
"瓶";
"壶";
"卮";
"盏";
"箩";
"箱";
"煲";
"啖";
"袋";
"钵";
"月";
"日";
"季";
"刻";
"时";
"小时";
"周";
"天";
"秒";
"分";
"旬";
"纪";
"岁";
"世";
"更";
"夜";
"春";
"夏";
"秋";
"冬";
"代";
"伏";
"辈";
"丸";
"泡";
"粒";
"颗";
"幢";
"堆";
"条";
"根";
"支";
"道";
"面";
"片";
"张";
"颗";
"块";
"架";
"千米";
"分米";
"厘米";
"毫米";
"微米";
"纳米";
"亿";
"千万";
"百万";
"万";
"千";
"百";
"亿块";
"千万块";
"百万块";
"万块";
"千块";
"百块";
"亿角";
"千万角";
"百万角";
"万角";
"千角";
"百角";
"亿毛";
"千万毛";
"百万毛";
"万毛";
"千毛";
"百毛";
"亿分";
"千万分";
"百万分";
"万分";
"千分";
"百分";
"亿元";
"千万元";
"百万元";
"万元";
"千元";
"百元";
"元";
"吨";
"度";
"摄氏度";
"字";
"兆"
].
(** tn/chinese/data/money/code.tsv *)
Definition zh_tn_money_code : list string := [
"A$	澳元";
"AED	阿联酋迪拉姆";
"ARS	阿根廷比索";
"AUD	澳元";
"CAD$	加元";
"CAD	加元";
"CHF	瑞士法郎";
"CNY	人民币";
"EUR	欧元成员国";
"GBP	英镑";
"HK＄	港元";
"HKD	港元";
"INR	印度卢比";
"J￥	日元";
"JPY￥	日元";
"JPY	日元";
"KRW	韩元";
"RUB	俄罗斯卢布";
"SAR	沙特阿拉伯里亚尔";
"SEK	瑞典克朗";
"SGD	新加坡元";
"THB	泰铢";
"TRY	土耳其里拉";
"USD	美元"
].
(** tn/chinese/data/money/symbol.tsv *)
Definition zh_tn_money_symbol : list string := [
"$	美元";
"£	英镑";
"￡	英镑";
"¥	元";
"￥	元";
"฿	泰铢";
"€	欧元";
"₹	印度卢比";
"₽	卢布";
"CHF	瑞士法郎";
"R$	巴西雷亚尔"
].
(** tn/chinese/data/number/digit.tsv *)
Definition zh_tn_number_digit : list string := [
"1	一";
"2	二";
"3	三";
"4	四";
"5	五";
"6	六";
"7	七";
"8	八";
"9	九";
"１	一";
"２	二";
"３	三";
"４	四";
"５	五";
"６	六";
"７	七";
"８	八";
"９	九"
].
(** tn/chinese/data/number/dot.tsv *)
Definition zh_tn_number_dot : list string := [
".	点"
].
(** tn/chinese/data/number/sign.tsv *)
Definition zh_tn_number_sign : list string := [
"+	正";
"±	正负";
"-	负"
].
(** tn/chinese/data/number/teen.tsv *)
Definition zh_tn_number_teen : list string := [
"1	";
"2	二";
"3	三";
"4	四";
"5	五";
"6	六";
"7	七";
"8	八";
"9	九";
"１	";
"２	二";
"３	三";
"４	四";
"５	五";
"６	六";
"７	七";
"８	八";
"９	九"
].
(** tn/chinese/data/number/zero.tsv *)
Definition zh_tn_number_zero : list string := [
"0	零";
"０	零"
].
(** tn/chinese/data/sport/club.tsv *)
Definition zh_tn_sport_club : list string := [
"爆冷";
"1948中央陆军";
"1975学院";
"AB阿吉尔";
"AC奥卢";
"AC米兰";
"AEK拉亚拿卡";
"AEK雅典";
"AEL利马素";
"AIK苏纳";
"ASO谢里夫";
"B36拖锡云";
"B68托夫蒂尔";
"拉多姆利";
"BOG史崔克";
"CDS维达";
"CD奥林比亚";
"CD柏拉坦斯";
"CD皇家苏斯达";
"CD维多利亚";
"CD维拉克鲁斯";
"斯特雷穆尔";
"FA希奥利艾";
"FC东京";
"FC光州";
"FC利沃夫";
"FC古斯哥";
"FC圣达哥林玛";
"FC奥斯汀";
"FC婆罗洲";
"FC悉尼";
"FC洛杉矶";
"FC萨莫拿";
"FC辛辛那提";
"FC达拉斯";
"FC首尔";
"FK奥达";
"HB拖锡云";
"HIFK赫尔辛基";
"HJK赫尔辛基";
"LOA热力";
"MC奥兰";
"MC阿尔及尔";
"MKE安卡华高古";
"NAPA流浪者";
"NA侯赛恩";
"NEC奈梅亨";
"NSI鲁纳维克";
"OFI克里特";
"PAOK";
"PSIS施马隆";
"PSM马卡沙尔";
"PSS施莱曼";
"PSV埃因霍温";
"PTT罗勇";
"RFC瑟兰";
"RKC华域克";
"SC巴塞罗那";
"SK超级星";
"TC体育会";
"TIRA佩斯卡保";
"UE圣达哥林玛";
"UE恩高丹";
"UNAM普马斯";
"UOG崔坦";
"USM阿尔及尔";
"USV伊斯琛";
"VPS瓦萨";
"WSG蒂罗尔尔";
"万象";
"万隆";
"上国狮子";
"上海海港";
"上海申花";
"下科恩";
"下诺夫哥罗德";
"不丹皇家星队";
"不丹皇家波尔";
"不丹皇家联";
"不丹结算所";
"东北文化协会";
"东北联";
"东宾高";
"东方石油";
"东方龙狮";
"东部市郊";
"东里法";
"两国体育";
"中央科尔多瓦";
"中日德兰";
"中部海岸海员";
"丹戎巴葛联";
"久加斯";
"乌坚学院";
"乌姆沙拉尔";
"乌巴赫";
"乌得勒支";
"乌拉尔";
"乌拉尔图";
"乌比斯迪";
"乌纳尼亚";
"乌路柏";
"乌路柏点";
"乌迪内斯";
"云达不来梅";
"亚历山德里亚";
"亚松森河床";
"亚特兰大";
"亚美利加";
"亚蒙克";
"亚达纳邦";
"亨切什蒂";
"京都不死鸟";
"仁川联";
"从山谷独立";
"以斯拉";
"仰光联";
"伊卜伊蒂哈德";
"伊卜艾薛伯";
"伊安尼高斯";
"伊尔韦斯";
"伊斯兰教体育俱乐部";
"伊斯坦布尔";
"伊斯洛奇明斯克";
"伊斯特拉";
"伊洛瓦底联";
"伊纳迪亚";
"伊蒂哈德";
"伊蒂哈德亚历山大港";
"伊蒂哈德塞拉莱";
"伊蒂法克";
"伊高斯";
"伍尔弗汉普顿流浪者";
"伏伊伏丁那";
"伯恩茅斯";
"佐加顿斯";
"体操击剑队";
"体育男";
"佛罗伦萨";
"佩历克";
"佩尼亚恩卡纳达";
"佩尼邦";
"佩斯拉查";
"佩斯普拉";
"佩斯查雅加达";
"佩斯达";
"佩特捷德";
"佩西克";
"佩西拉";
"依斯麦里";
"侯斯顿迪纳摩";
"侯治柏度";
"侯赛恩";
"保查";
"保迪夫";
"保迪夫华特沙";
"保迪祖域斯";
"兄弟联";
"兄弟联队";
"先锋体育团";
"克卢日";
"克卢日大学";
"克拉斯诺达尔";
"克拉科维亚";
"克莱蒙特";
"克里夫巴斯";
"克雷莫纳";
"全北现代汽车";
"八打灵再也城";
"公马内湖";
"兰斯";
"兰讷斯";
"关岛造船厂";
"兴都库什雄鹰";
"内姆梅卡柳";
"冠忠南区";
"凡恩";
"凤凰竞技";
"凯尔任";
"凯尔特人";
"切尔西";
"切洛";
"切洛拉高";
"列文科尼茨";
"列治亚";
"列特";
"列积卡";
"列达利亚尔";
"利云斯顿";
"利伯泰迪";
"利伯达斯";
"利兹联";
"利加大学";
"利勒斯特罗姆";
"利华戴亚高斯";
"利尔";
"利尔马卡萨";
"利文哥特奴";
"利斯菲体育俱乐部";
"利沃夫鲁克";
"利物浦";
"利瓦迪亚";
"利耶帕亚";
"利马联";
"加义";
"加尔各答体育会";
"加巴拉";
"加拉塔萨雷";
"加斯安塔";
"加格拉";
"加的夫都市大学";
"加的斯";
"加薛耶查柏";
"勒沃库森";
"化奴";
"北京国安";
"北海道札幌冈萨多";
"北西兰";
"十字军";
"十月9FC";
"十月十二日队";
"华列达";
"华利祖大学";
"华堡";
"华拉斯";
"华拉萨甸";
"华沙莱吉亚";
"华盛顿联队";
"华纳斯巴达";
"华纳莫";
"华维斯";
"华路亚";
"华达普斯纳";
"南安普顿";
"南定";
"南特";
"南缅甸联";
"博亚卡捷高";
"博德闪耀";
"博托沙尼";
"博格巴索华";
"博洛尼亚";
"博维斯塔";
"卡内米勇士";
"卡利";
"卡利阿美利加";
"卡华拉联";
"卡图高比斯";
"卡域克流浪";
"卡塔尔体育会";
"卡塞利";
"卡奥诺萨基利兹";
"卡宾达";
"卡尔巴";
"卡尔马";
"卡布斯科普";
"卡拉保保";
"卡拉卡斯";
"卡拉古拉克";
"卡拉奥华大学";
"卡拉奥华大学1948";
"卡拉巴克";
"卡拉干达";
"卡拉特";
"卡拉雷联";
"卡拉马";
"卡拜里";
"卡斯比";
"卡斯特里堤";
"卡斯马";
"卡查马卡大学";
"卡森柏沙";
"卡洛斯文路斯";
"卡米奥提萨";
"卡萨比亚";
"卡诺支柱";
"卡贝略港大学";
"卡路士斯汀";
"卡达斯";
"卡那芬";
"卡阿拉";
"卡雅";
"卡齐纳联";
"卢加诺";
"卢塞恩";
"卢多格德斯";
"卢旺达国际";
"卢旺达石油";
"印度箭头";
"厄尔布尔士神鸟";
"历基尼亚";
"古亚巴";
"古亚连拿";
"古卡历基";
"古泰斯鱼雷";
"古达加联";
"古里高联";
"台中Futuro";
"台北竞技";
"台南市台湾钢铁";
"台湾电力";
"台湾石虎";
"史塔米列克";
"史路加多博伊";
"史达兰";
"吉大港阿巴罕尼";
"吉打";
"吉达艾阿里";
"吉隆坡联";
"吉马良斯";
"名古屋鲸鱼";
"名誉";
"后港联";
"君士坦丁";
"和富大埔";
"咸仑斯巴坦";
"咸卡";
"哈伊杜克";
"哈卡";
"哈塔斯堡";
"哈夫纳夫约杜尔";
"哈密尔顿流浪者";
"哈尔迪亚";
"哈尼联足球会";
"哈特兰德";
"哈特堡";
"哈达";
"哈迪拉夏普尔";
"哈里路风暴";
"哈马比";
"哥伦布机员";
"哥利卡";
"哥德堡";
"哥本哈根";
"哥罗纳";
"哥连泰斯";
"喀拉拉爆破手";
"喜伯年";
"四二五体育队";
"国民会";
"国民体育俱乐部";
"国民普托斯";
"国际体育俱乐部";
"国际图尔库";
"国际米兰";
"国际迈阿密";
"图卢兹";
"图库姆斯2000";
"图库曼体育俱乐部";
"图积兰奴斯";
"图达杜利斯";
"圣乔凡尼";
"圣保罗";
"圣加伦";
"圣卢西亚";
"圣图尔登";
"圣地亚哥漫游者";
"圣基莱斯联";
"圣巴特里克";
"圣庄士东";
"圣彼得堡泽尼特";
"圣罗伦素";
"圣美伦";
"圣艾斯佩兰卡";
"圣若瑟";
"圣荷西体育俱乐部";
"圣荷西地震";
"圣达丽塔";
"圣达菲";
"圣达菲联";
"圣马田大学";
"地拉那";
"坎特伯雷联龙队";
"坦梅卡";
"埃利赞";
"埃努古流浪";
"埃尔切";
"埃弗顿";
"埃斯托里尔";
"埃施福拉";
"埃施青年";
"埃特尔布吕克";
"埃里温中央陆军";
"城南FC";
"域堡";
"基亚尼拿";
"基利森";
"基卡拉斯域卡";
"基多天主教大学";
"基夫拿维克";
"基尔史莫纳夏普尔";
"基尔马诺克";
"基希讷乌野牛";
"基拿云";
"基斯华达";
"基斯昆姆";
"基斯迪辛特";
"基福维利";
"基维辛迪";
"基萨斯联";
"基辅迪纳摩";
"基锡沙尔";
"塔利亚";
"塔奇拉";
"塔拉雅";
"塔斯干火车头";
"塔林军团";
"塔林卡勒夫";
"塔泰兰";
"塔达蒙";
"塞伊奈约基";
"塞列斯尼格罗斯";
"塞尔塔";
"塞帕";
"塞维利亚";
"塞维特";
"墨尔本城";
"墨尔本胜利";
"夏维科韦斯郡";
"多哈艾阿拉比";
"多哈艾阿里";
"多特蒙德";
"大师7";
"大格兰特";
"大连人";
"大邱FC";
"大都会FC";
"大阪樱花";
"大阪飞脚";
"天主教大学";
"天津津门虎";
"天狼星";
"天猫";
"奇姆基";
"奈夫特索罗曼";
"奈斯";
"奥伊本";
"奥伦斯";
"奥克兰城";
"奥兰多城";
"奥地利克拉根福";
"奥地利维也纳";
"奥地利路斯登洛";
"奥尔堡";
"奥尔梅多";
"奥尔迪诺";
"奥希金斯";
"奥德格伦兰";
"奥摩尼亚";
"奥斯坦德";
"奥斯泰华";
"奥斯积克";
"奥林匹亚科斯";
"奥林匹克麦迪亚";
"奥林比亚";
"奥林比亚会";
"奥格斯堡";
"奥洛慕克";
"奥特海维利";
"奥胡斯";
"奥萨苏纳";
"奥达巴斯";
"奥达斯";
"委内瑞拉体育俱乐部";
"威拉";
"威斯特曼";
"威灵顿";
"威灵顿凤凰预备组";
"孟买城";
"学生队";
"安图法加斯达";
"安塔利亚";
"安察利克";
"安德莱赫特";
"安曼";
"安波里";
"安特卫普";
"安罗科萨斯";
"安耶巴";
"安联大学";
"安萨尔";
"安迪江";
"宋兰义安";
"实皆联";
"宾尼沙坚";
"宾尼耶斯";
"宾约哥";
"富勒姆";
"富拿特";
"富明尼斯";
"小保加";
"小白水体育团";
"小象";
"小阿根廷人";
"尤尔马拉斯巴达克斯";
"尤文图斯";
"尤比沙漠之星";
"尼兹华";
"尼坦亚马卡尔皮";
"尼日尔龙卷风";
"尼科西亚";
"尼科西亚奥林匹亚科斯";
"尼菲治巴库";
"山东泰山";
"山度士";
"岘港";
"岛民";
"川崎前锋";
"巴伦西亚会";
"巴列卡诺";
"巴利亚多利德";
"巴利米纳联";
"巴力图";
"巴卡托普拿";
"巴厘联";
"巴吞联";
"巴堤";
"巴塞尔";
"巴塞罗那";
"巴尔辛";
"巴尔采斯";
"巴希亚";
"巴扬卡拉";
"巴拉城";
"巴拉干天奴";
"巴拉杜";
"巴拉纳体育俱乐部";
"巴斯顺达拉国王";
"巴杜米迪纳摩";
"巴格达空军";
"巴禾";
"巴萨克赛尔";
"巴蜀基利";
"巴赫莱";
"巴迪";
"巴黎圣日耳曼";
"布伦特福德";
"布列斯特迪纳摩";
"布加勒斯特星队";
"布加勒斯特迅速";
"布卡拉曼加";
"布哈拉";
"布尤坎达基亚";
"布度洛斯";
"布拉加";
"布拉格斯巴达";
"布拉格斯拉维亚";
"布拉沃斯";
"布洛顿";
"布莱顿";
"布达亚";
"布达佩斯华沙斯";
"布达佩斯汉维特";
"布里斯班狮吼";
"布阿拉里季堡";
"布鲁日";
"布鲁日舒高";
"希伯";
"希伯尼恩斯";
"希拉尔";
"帕丘卡";
"帕克斯";
"帕尔杜比斯";
"帕度华";
"帕斯度";
"帕斯祖洛比";
"帕特奥达斯";
"帕福斯";
"帕纳辛奈科斯";
"帕雷拉";
"平壤体育团";
"平定";
"平阳";
"年轻人";
"幸运薛达";
"幼狮队";
"广宁煤炭";
"广岛三箭";
"广州";
"广州城";
"库克斯";
"库安多古班哥";
"库普斯";
"库雷萨雷";
"庞特普里斯";
"康纳斯码头";
"廷布市";
"弗林特镇联";
"弗洛拉";
"弗赖堡";
"弗雷姆";
"强者";
"当姆萨尼";
"当尼斯克矿工";
"当马兰奴";
"彭亨";
"彭尼杜列高斯";
"彭尼维兹";
"彭拿洛沙";
"彭拿路";
"彭美拉斯";
"彭迪夫学院";
"得分王";
"德利城";
"德布雷辛尼";
"德里戴拿模";
"德锡";
"恒势";
"恩彼";
"恩维加多";
"恰帕斯美洲豹";
"惠灵顿凤凰";
"慕尼斯帕尔";
"戈亚尼恩斯";
"戈里卡";
"成都蓉城";
"托拉卡";
"托特纳姆热刺";
"拉古亚班巴";
"拉多米亚克";
"拉奇";
"拉巴特";
"拉布历基";
"拉德";
"拉德尼基";
"拉恩";
"拉查体育俱乐部";
"拉查布里";
"拉特南";
"拉瓜尔拉";
"拉科奥里塔";
"拉科尼联";
"拉米亚";
"拉赫蒂";
"拉鲁斯";
"拉齐奥";
"拖雷斯";
"拜仁慕尼黑";
"拜利斯";
"拜基卡拉";
"拿加沙";
"拿夫巴贺";
"拿夫特";
"拿拉FC";
"拿拉体育俱乐部";
"拿比达克";
"拿沙连拿";
"拿舒维尔";
"拿菲米辛";
"拿萨夫";
"挪亚";
"捷尔任斯克兵工厂";
"捷斯托佐华";
"捷迪斯沃";
"掸联";
"摩拿";
"摩纳哥";
"摩里伦斯";
"收租者竞技";
"敦达克";
"文茨皮尔斯";
"斯佩齐亚";
"斯卡利察";
"斯卡拉";
"斯卢茨克";
"斯古比";
"斯图加特";
"斯基克达";
"斯威夫特";
"斯平加尔苍鹰";
"斯托姆加斯特";
"斯拉维亚莫兹里";
"斯洛云";
"斯洛华高";
"斯洛波达";
"斯特拉斯堡";
"斯特里达";
"斯特鲁加";
"斯科普里";
"新人SC";
"新加坡新潟天鹅";
"新圣徒";
"新英伦革命";
"新青年";
"施亚拉";
"施伦斯";
"施利高流浪";
"施历斯";
"施基斯亚";
"施安尼";
"施恩施雅奴";
"施拉";
"施拉云";
"施拉斯克";
"施捷";
"施普斯";
"施比尼克";
"施洛奇伯拉治";
"施特拉森";
"施连";
"施迪夫";
"日利纳";
"时刻准备着";
"昂热";
"昆卡";
"明尼苏达联";
"明尼路";
"明斯克";
"明斯克迪纳摩";
"春武里";
"晋峰";
"普夫迪夫火车头";
"普斯卡斯学院";
"普罗斯克";
"普罗格雷素";
"智利大学";
"曼城";
"曼塔";
"曼彻斯特62";
"曼联";
"曼谷联";
"曼迪奥拉";
"曼霍本拉拉希";
"月尾岛体育团";
"朗斯";
"本菲卡";
"朴比达";
"朴达丹";
"朴迪莫伦斯";
"杜保尔";
"杜克拉";
"杜兰";
"杜利马";
"杜希达联";
"杜斯拿城";
"杰志";
"极光队";
"林比";
"林肯红魔鬼";
"林茨";
"果阿";
"柏克塔哥";
"柏利斯天奴";
"柏拉坦斯";
"柏斯波利斯";
"柏林联";
"柏林赫塔";
"柏简";
"柏雷素尔";
"柔佛DT";
"查些路";
"查内尔";
"查华尔";
"查比高恩斯";
"查洛摩亚";
"查维斯";
"标准列日";
"标准流浪";
"根克";
"根茨";
"格伦杜兰";
"格兹拉联";
"格拉茨";
"格罗宁根";
"桑普多利亚";
"梅塔";
"梅州客家";
"梅拿";
"梅拿达";
"梅格";
"梅索科菲德";
"梅赫伦";
"梅里比拉";
"梅里达学生队";
"棕榈花竞技";
"森利德";
"森彼连";
"槟城";
"横滨水手";
"欧卡斯";
"欧塞尔";
"欧登塞";
"武汉三镇";
"武汉长江";
"武里南联";
"比亚斯华夏普尔";
"比利亚雷亚尔";
"比卓拿";
"比历斯";
"比尔森胜利";
"比尼拉纳";
"比拿斯卡";
"比斯克拉";
"比斯特";
"比杜路尔";
"比林";
"比罗";
"比达比历";
"毕尔巴鄂";
"水原FC";
"水原三星蓝翼";
"水晶体育";
"水晶宫";
"汉卡约";
"汉达瓦底联";
"江原FC";
"沃尔夫斯堡";
"沃尔夫斯贝格";
"沙兰迪兵工厂";
"沙勒格斯基";
"沙哈霍德罗";
"沙士菲";
"沙奥利姆";
"沙尔";
"沙尔克04";
"沙巴";
"沙巴尔";
"沙巴巴库";
"沙巴柏沙希";
"沙巴罕";
"沙巴阿罗登";
"沙布达卢";
"沙恩";
"沙拉姆";
"沙斯辛";
"沙欣布希尔";
"沙比艾阿里";
"沙汉姆";
"沙没巴干城";
"沙洛克流浪";
"沙米恩图";
"沙迦";
"沙马基";
"沧州雄狮";
"河内FC";
"河北FC";
"河南嵩山龙门";
"河床";
"河流联";
"法兰克福";
"法尔西亚诺";
"法马利卡奥";
"法高尔";
"波兹南莱克";
"波利斯拉夫";
"波图加沙";
"波坦奴";
"波士顿河";
"波尔图";
"波希米亚人";
"波希美恩斯";
"波特兰伐木者";
"波素斯捷";
"波鸿";
"泰哈蒙";
"泰哥维斯特";
"泰拉克托";
"泰拉维";
"泰港";
"泰科奥里";
"泰纳瓦斯巴达";
"泰路警察";
"泽巴格流浪";
"泽维卡平联";
"洛杉矶银河";
"洛比托";
"洛比星队";
"洛里昂";
"洪卡";
"洪都拉斯普基素";
"派德";
"流浪者";
"济州联";
"浙江";
"浦和红钻";
"浦那城";
"浦项制铁";
"浩罕1912";
"海于格松";
"海伦芬";
"海军海鹰";
"海法马卡尔皮";
"海豚SC";
"海防";
"淡滨尼流浪";
"深圳";
"深水埗";
"清化";
"清奈城";
"清奈泰坦";
"清恩联";
"清水心跳";
"清莱联";
"温特图尔";
"港会";
"游击队";
"游击队地拉拿";
"湘南美海";
"澳门士砵亭";
"澳门宾菲加";
"澳门警察";
"火炬体育团";
"火车头体育队";
"灰色队";
"燕子体育团";
"特伦辛";
"特拉布宗";
"特拉维夫夏普尔";
"特拉维夫马卡尔皮";
"特斯连";
"特林素";
"特温特";
"特莱姆森";
"特里森";
"特里森贝格";
"特里波利斯";
"特鲁瓦";
"独立队";
"狮城水手";
"玛丽港";
"玛拉工艺大学";
"玛格拉";
"环球马卡蒂";
"玻利瓦尔";
"珀斯光辉";
"班查鲁卡玻拉斯";
"班菲特";
"理工大学竞技";
"理文";
"瓜亚基尔城";
"瓜兰尼";
"瓜比拉";
"瓜达拉哈拉体育俱乐部";
"瓦伦西亚";
"瓦勒伦加";
"瓦普鲁斯";
"瓦杜茨";
"瓦迪戴加";
"甘堡尔";
"甘美奥";
"电气工业";
"登嘉楼";
"登地联";
"白俄罗斯国立大学";
"百万富翁";
"的黎波里";
"皇家伊斯柏纳";
"皇家军力";
"皇家卡施米尔";
"皇家圣克鲁斯";
"皇家帕里";
"皇家普托斯";
"皇家盐湖城";
"皇家社会";
"皇家贝蒂斯";
"皇家马德里";
"皮亚斯特";
"皮埃塔热刺";
"直布罗陀狮子";
"石油联盟";
"磐田喜悦";
"祖云尼斯杜加拿";
"祖奴摩勒斯";
"祖尔特瓦雷根";
"神户胜利船";
"福冈黄蜂";
"福托华";
"禾伦达利";
"禾宁丹";
"禾斯克拉";
"禾斯杜华斯";
"禾路斯";
"科伦坡FC";
"科利安拿";
"科威特SC";
"科尔多瓦美洲虎";
"科尼亚";
"科布雷素";
"科斯克米提";
"科泰尼沙";
"科洛尼亚广场";
"科特赖克";
"科罗拉多急流";
"科莫斯";
"科路巴拉";
"科隆";
"秘鲁体育大学";
"积基鲁尼亚";
"积布尼克";
"竞技研讨会";
"竞赛会";
"竞赛联";
"第比利斯火车头";
"第比利斯迪纳摩";
"第聂伯罗第一";
"简度拿奥";
"米兰";
"米勒瓦旁遮普";
"米奈";
"米奥云尼";
"米尔沙米";
"米拿罗斯";
"米赞比";
"米达利兹";
"米达利兹1925";
"精英队";
"素可泰";
"索利戈尔斯克矿工";
"索契";
"索尔亚";
"索柏阿汉";
"索莫哈";
"索迪约拿";
"索非亚中央陆军";
"索非亚利夫斯基";
"索非亚斯拉维亚";
"索非亚施谭夫尼";
"索非亚火车头";
"红星";
"约纳瓦";
"纳夫艾华萨特";
"纳尔瓦特兰斯";
"纳尼恩";
"纳沙";
"纳沙拉瓦联";
"纽卡斯尔联";
"纽卡素喷气机";
"纽城";
"纽柏莱斯";
"纽约城";
"纽约红牛";
"纽维尔旧生";
"纽里城";
"绍乌拉";
"维也纳迅速";
"维京";
"维京加高泰";
"维京古";
"维图斯";
"维基旅行者";
"维安";
"维尔茨";
"维拉斯尼亚";
"维拿迪马爱华顿";
"维捷布斯克";
"维泽夫";
"维罗纳";
"维薛拿";
"维迪斯";
"绿色街道";
"罗勇";
"罗斯托夫";
"罗斯波特维多利亚";
"罗斯郡";
"罗森博格";
"罗沙里奥中央";
"罗达";
"罗马";
"美因茨";
"美洲太阳";
"美达罗";
"老挝丰田";
"老挝警察";
"耶路撒冷比达";
"联乐";
"股权保险队";
"肯萨斯城体育俱乐部";
"胜利联队";
"胡志明市";
"胡特恩";
"自由议会";
"舒列夫";
"舒尔本";
"舒肯迪捷";
"航源FC";
"航空竞技";
"般奴";
"般奴麦柏斯";
"艾乌鲁巴";
"艾伯哈";
"艾伯里斯特夫";
"艾修达";
"艾加拉法";
"艾华卡拉";
"艾华夫伯";
"艾华斯尔";
"艾华达";
"艾华达SC";
"艾卡克";
"艾卡哈艾阿利";
"艾卡夏巴";
"艾卡迪斯亚";
"艾卡马特";
"艾哈斯姆";
"艾哥尔";
"艾喜拉";
"艾基森";
"艾塔亚文";
"艾塔拉巴";
"艾塞利亚";
"艾夫斯堡";
"艾安定艾哈比";
"艾尔索达";
"艾巴卡";
"艾希迪";
"艾干纳";
"艾恩米利拉";
"艾拉华特";
"艾拉华特阿美尼亚";
"艾拉斯克特";
"艾拿查夫";
"艾拿积马";
"艾提拉尔";
"艾文拿";
"艾斯加的斯体育俱乐部";
"艾斯加的斯国际";
"艾斯卡尔";
"艾斯宾路拿";
"艾斯迪格拿";
"艾杜哈尼";
"艾杜美图斯";
"艾杰拉";
"艾查捷拉";
"艾查捷拉安曼";
"艾沙克";
"艾沙哈尼亚";
"艾沙希";
"艾沙比";
"艾沙比雅玛迪";
"艾法特";
"艾祖拉";
"艾穆哈拉克";
"艾索莱";
"艾纳斯";
"艾维达";
"艾美历克";
"艾萨威尔";
"艾萨德";
"艾费哈";
"艾贺查拉";
"艾贾里勒";
"艾赞洛布";
"艾赫多德";
"艾辛尼";
"艾达哈耶";
"艾达喀尔迪萨利";
"艾达治";
"艾连姆沙";
"艾迪云尼亚";
"艾迪哈法";
"艾里斯利马素";
"艾锡卜";
"艾阿恩";
"艾阿达拿";
"艾阿里";
"艾阿里文拉马";
"艾阿里萨那";
"艾雷恩";
"艾马纳特巴格达";
"艾高斯图";
"芝加哥火焰";
"芬哈斯";
"芽笼国际";
"苏亚巴亚";
"苏利亚";
"苏博迪卡";
"苏古汉";
"苏度瓦";
"苏怀克";
"苏杜利卡";
"苏积斯卡";
"苏鲁切恩圣乔治";
"苏黎世";
"若基诺鱼雷";
"英胡利兹";
"草蜢";
"莫塔瓜";
"莫尔";
"莫斯科中央陆军";
"莫斯科斯巴达克";
"莫斯科火车头";
"莫斯科迪纳摩";
"莫斯科鱼雷";
"莫斯达";
"莫纳加斯";
"莱切";
"莱奥塔";
"莱斯特城";
"莱比锡RB";
"菲奥兰提诺";
"菲律宾U-23";
"菲律宾空军";
"萨克贺";
"萨勒尼塔纳";
"萨古拉利";
"萨哈布";
"萨基利兹";
"萨姆加耶特";
"萨尔米亚";
"萨尔茨堡红牛";
"萨巴柏保查";
"萨拉热窝";
"萨拉米斯";
"萨普";
"萨普斯堡";
"萨格勒布火车头";
"萨格勒布迪纳摩";
"萨比利斯";
"萨法";
"萨瓦赫尔";
"萨索洛";
"萨那艾华达";
"萨马华";
"萨马拉";
"萨马雷克";
"葛度尔古斯";
"葡人之家";
"葡萄牙体育";
"蒂图斯佩唐日";
"蒂拉斯波尔";
"蒂拉斯波尔迪纳摩";
"蒂瓦特阿森纳";
"蒙代康日";
"蒙地卡罗";
"蒙多夫";
"蒙彼利埃";
"蒙扎";
"蒙斯卡普";
"蒙特维多利物浦";
"蒙特维多国民队";
"蒙特维多城扭矩";
"蒙特维多河床";
"蒙特维多流浪";
"蒙通联";
"蓝十字体育俱乐部";
"蓝星";
"蔚山现代";
"蔡伦戈";
"薛谢斯历卡";
"西悉尼流浪";
"西汉姆联";
"西班牙人";
"西贡";
"西部联";
"西雅图海湾者";
"诺丁汉森林";
"诺拉万克";
"诺维柏沙";
"诺费尔";
"诺高平";
"诺高莫";
"谢夫";
"谢赫拉塞尔";
"豪克斯湾";
"豪尔费坎";
"贝加尼卡";
"贝勒阿巴斯";
"贝尔格莱德红星";
"贝西克塔斯";
"贝雷茨";
"贝鲁札达";
"质量经销商";
"费伦茨瓦罗斯";
"费内巴切";
"费利拿";
"费坦奴";
"费城联";
"费夏华";
"费耶诺德";
"费萨里";
"贺拉戴克";
"贾柏莱";
"赫塔费";
"赫尔辛堡";
"赫斯";
"赫根";
"赫格尔曼立陶宛";
"赫罗纳";
"超级联体育会";
"越电信";
"路宾";
"路昆奴";
"路梳比洛";
"路达普列夫利亚";
"轻工业省体育团";
"辛斯华尔";
"辛特儒尼奥尔";
"辛达喀尔拉";
"辛连斯基";
"辛迪夫佐特";
"达保亚";
"达叻";
"达奴比奥";
"达安蒙迪";
"达尔贝达";
"达马克";
"迈万德冠军";
"进步者";
"连菲特";
"迪克维斯";
"迪加科斯";
"迪宾尼";
"迪尼伯";
"迪弗当日";
"迪德朗日";
"迪拿哥里";
"迪赫弗";
"邓根伦";
"那不勒斯";
"那空拉查斯马";
"邦加";
"邹北记";
"都柏林大学";
"都灵";
"里加FC";
"里加足校";
"里奥艾维";
"里昂";
"里波洛";
"金字塔";
"铭传大学";
"锡尔克堡";
"锡永";
"锡瓦斯体育";
"长春亚泰";
"门兴格拉德巴赫";
"防卫者";
"阳光星";
"阿伯丁";
"阿克托比";
"阿克瓦联";
"阿克苏";
"阿勒颇伊蒂哈德";
"阿古拿斯";
"阿古雷利";
"阿喀巴";
"阿姆波浪";
"阿尔亚莫克";
"阿尔克马尔";
"阿尔内泽默";
"阿尔列法";
"阿尔华达";
"阿尔哈拉";
"阿尔富吉拉";
"阿尔拿达";
"阿尔查殊";
"阿尔梅里亚";
"阿尔禾里亚";
"阿尔纳夫";
"阿尔纳斯";
"阿尔纳沙";
"阿尔艾拉比";
"阿尔萨特";
"阿尔费萨里";
"阿尔阿赫德";
"阿巴辛波浪";
"阿度斯维";
"阿德莱德联";
"阿拉伯建筑";
"阿拉姆巴格体育会";
"阿拉尼亚";
"阿拉德";
"阿拉瓜";
"阿斯塔纳";
"阿斯顿维拉";
"阿斯麦隼鸟";
"阿曼FC";
"阿查斯";
"阿森纳";
"阿比亚勇士";
"阿比尔";
"阿波罗利马素";
"阿洛卡";
"阿特兰大联";
"阿特雷";
"阿积曼";
"阿简尼斯";
"阿美利加明尼路";
"阿耶古祖";
"阿舒多";
"阿贾克斯";
"阿达纳";
"阿里斯";
"阿里辛特";
"阿雅克肖";
"阿雷马";
"陶格夫匹尔斯";
"隆德比";
"雅拉古恩奴斯";
"雪兰莪";
"雷克雅未克";
"雷尼基利斯";
"雷恩";
"雷格尔";
"雷诺华";
"霍尔森斯";
"霍斯特尔特";
"霍芬海姆";
"霹雳";
"青年人";
"青年体育俱乐部";
"青锋";
"靴曼斯达特";
"韦斯图尔";
"韦斯特曼纳耶";
"韦斯达路";
"韦达卡萨布兰卡";
"韦达基利联";
"飓风队";
"香港U23";
"马克塔拉尔";
"马六甲联";
"马其顿尼亚";
"马兹亚";
"马勒杜斯";
"马卡拉";
"马圭";
"马奇尼沙治";
"马安";
"马尔多纳多";
"马尔默";
"马德里竞技";
"马拉奇";
"马拉顿";
"马斯喀特";
"马斯特";
"马斯纳亚";
"马格里布";
"马沙尔";
"马沙斯洛克";
"马瑟韦尔";
"马略卡";
"马萨雷";
"马赛";
"马赞德兰";
"马都拉联";
"马里博尔";
"马里士他卡沙";
"马里迪莫";
"高利宁";
"高劳";
"高原联";
"高古林";
"高尔高赫";
"高柏";
"高洛斯";
"高美尔";
"高路高路";
"高隆";
"鲁卡尼";
"鲁斯塔克";
"鲤明水体育团";
"鸟栖砂岩";
"鸭绿江体育队";
"鸿岭河静";
"鹿岛鹿角";
"鹿特丹斯巴达";
"麦克阿瑟";
"麦德林独立";
"麦纳玛";
"黄英嘉莱";
"黎明体育团"
].
(** tn/chinese/data/sport/country.tsv *)
Definition zh_tn_sport_country : list string := [
"阿富汗";
"阿尔巴尼亚";
"阿尔及利亚";
"美属萨摩亚";
"安道尔";
"安哥拉";
"安圭拉岛";
"南极洲";
"安提瓜和巴布达";
"阿根廷";
"亚美尼亚";
"阿鲁巴岛";
"澳大利亚";
"奥地利";
"阿塞拜疆";
"巴哈马";
"巴林";
"孟加拉国";
"巴巴多斯";
"白俄罗斯";
"比利时";
"伯利兹";
"贝宁";
"百慕大";
"不丹";
"玻利维亚";
"波斯尼亚和黑塞哥维那";
"博茨瓦纳";
"巴西";
"英属印度洋领地";
"英属维尔京群岛";
"文莱";
"保加利亚";
"布基纳法索";
"缅甸";
"布隆迪";
"柬埔寨";
"喀麦隆";
"加拿大";
"佛得角";
"开曼群岛";
"中非共和国";
"乍得";
"智利";
"中国";
"圣诞岛";
"克利珀顿岛";
"科科斯群岛";
"哥伦比亚";
"科摩罗";
"刚果民主共和国";
"刚果共和国";
"库克群岛";
"珊瑚海群岛";
"哥斯达黎加";
"科特迪瓦";
"克罗地亚";
"古巴";
"塞浦路斯";
"捷克共和国";
"丹麦";
"吉布地";
"多米尼克";
"多明尼加共和国";
"厄瓜多尔";
"埃及";
"萨尔瓦多";
"赤道几内亚";
"厄立特里亚";
"爱沙尼亚";
"埃塞俄比亚";
"欧罗巴岛";
"福克兰群岛";
"法罗群岛";
"斐济";
"芬兰";
"法国";
"法属圭亚那";
"法属波利尼西亚";
"加蓬";
"冈比亚";
"乔治亚";
"德国";
"加纳";
"直布罗陀";
"格洛里厄斯群岛";
"希腊";
"格陵兰";
"格林纳达";
"瓜德罗普岛";
"关岛";
"危地马拉";
"根西岛";
"几内亚";
"几内亚比绍";
"圭亚那";
"海地";
"梵蒂冈城";
"洪都拉斯";
"匈牙利";
"冰岛";
"印度";
"印度尼西亚";
"伊朗";
"伊拉克";
"爱尔兰";
"马恩岛";
"以色列";
"意大利";
"牙买加";
"扬马延岛";
"日本";
"泽西岛";
"约旦";
"新胡安岛";
"哈萨克斯坦";
"肯尼亚";
"基里巴斯";
"科威特";
"吉尔吉斯斯坦";
"老挝";
"拉脱维亚";
"黎巴嫩";
"莱索托";
"利比里亚";
"利比亚";
"列支敦士登";
"立陶宛";
"卢森堡";
"马其顿";
"马达加斯加";
"马拉维";
"马来西亚";
"马尔代夫";
"马里";
"马耳他";
"马绍尔群岛";
"马提尼克岛";
"毛里塔尼亚";
"毛里求斯";
"马约特岛";
"墨西哥";
"密克罗尼西亚联邦";
"摩尔多瓦";
"摩纳哥";
"蒙古";
"蒙特塞拉特";
"摩洛哥";
"莫桑比克";
"纳米比亚";
"瑙鲁";
"纳瓦萨岛";
"尼泊尔";
"荷兰";
"荷属安的列斯";
"新喀里多尼亚";
"新西兰";
"尼加拉瓜";
"尼日尔";
"尼日利亚";
"纽埃";
"诺福克岛";
"朝鲜";
"北马里亚纳群岛";
"挪威";
"阿曼";
"巴基斯坦";
"帕劳";
"巴拿马";
"巴布亚新几内亚";
"西沙群岛";
"巴拉圭";
"秘鲁";
"菲律宾";
"皮特凯恩群岛";
"波兰";
"葡萄牙";
"波多黎各";
"卡塔尔";
"留尼汪";
"罗马尼亚";
"俄罗斯";
"卢旺达";
"圣赫勒拿岛";
"圣基茨和尼维斯";
"圣卢西亚岛";
"圣皮埃尔和密克隆群岛";
"圣文森特和格林纳丁斯";
"萨摩亚";
"圣马力诺";
"圣多美和普林西比";
"沙特阿拉伯";
"塞内加尔";
"塞尔维亚和黑山";
"塞舌尔群岛";
"塞拉利昂";
"新加坡";
"斯洛伐克";
"斯洛文尼亚";
"所罗门群岛";
"索马里";
"南非";
"韩国";
"西班牙";
"南沙群岛";
"斯里兰卡";
"苏丹";
"苏里南";
"斯瓦尔巴群岛";
"斯威士兰";
"瑞典";
"瑞士";
"叙利亚";
"塔吉克斯坦";
"坦桑尼亚";
"泰国";
"东帝汶";
"多哥";
"托克劳";
"汤加";
"特立尼达和多巴哥";
"特罗姆兰岛";
"突尼斯";
"土耳其";
"土库曼斯坦";
"特克斯和凯科斯群岛";
"图瓦卢";
"乌干达";
"乌克兰";
"阿拉伯联合酋长国";
"英国";
"美国";
"乌拉圭";
"乌兹别克斯坦";
"瓦努阿图";
"委内瑞拉";
"越南";
"维尔京群岛";
"威克岛";
"瓦利斯和富图纳群岛";
"西撒哈拉";
"也门";
"赞比亚";
"津巴布韦"
].
(** tn/chinese/data/time/hour.tsv *)
Definition zh_tn_time_hour : list string := [
"1	一点";
"2	两点";
"3	三点";
"4	四点";
"5	五点";
"6	六点";
"7	七点";
"8	八点";
"9	九点";
"00	零点";
"01	一点";
"02	两点";
"03	三点";
"04	四点";
"05	五点";
"06	六点";
"07	七点";
"08	八点";
"09	九点";
"10	十点";
"11	十一点";
"12	十二点";
"13	十三点";
"14	十四点";
"15	十五点";
"16	十六点";
"17	十七点";
"18	十八点";
"19	十九点";
"20	二十点";
"21	二十一点";
"22	二十二点";
"23	二十三点";
"24	二十四点"
].
(** tn/chinese/data/time/minute.tsv *)
Definition zh_tn_time_minute : list string := [
"00	";
"01	零一分";
"02	零二分";
"03	零三分";
"04	零四分";
"05	零五分";
"06	零六分";
"07	零七分";
"08	零八分";
"09	零九分";
"10	十分";
"11	十一分";
"12	十二分";
"13	十三分";
"14	十四分";
"15	十五分";
"16	十六分";
"17	十七分";
"18	十八分";
"19	十九分";
"20	二十分";
"21	二十一分";
"22	二十二分";
"23	二十三分";
"24	二十四分";
"25	二十五分";
"26	二十六分";
"27	二十七分";
"28	二十八分";
"29	二十九分";
"30	三十分";
"31	三十一分";
"32	三十二分";
"33	三十三分";
"34	三十四分";
"35	三十五分";
"36	三十六分";
"37	三十七分";
"38	三十八分";
"39	三十九分";
"40	四十分";
"41	四十一分";
"42	四十二分";
"43	四十三分";
"44	四十四分";
"45	四十五分";
"46	四十六分";
"47	四十七分";
"48	四十八分";
"49	四十九分";
"50	五十分";
"51	五十一分";
"52	五十二分";
"53	五十三分";
"54	五十四分";
"55	五十五分";
"56	五十六分";
"57	五十七分";
"58	五十八分";
"59	五十九分"
].
(** tn/chinese/data/time/noon.tsv *)
Definition zh_tn_time_noon : list string := [
"a m	上午";
"a.m.	上午";
"am	上午";
"A M	上午";
"AM	上午";
"p m	下午";
"p.m.	下午";
"pm	下午";
"P M	下午";
"PM	下午"
].
(** tn/chinese/data/time/second.tsv *)
Definition zh_tn_time_second : list string := [
"00	";
"01	一秒";
"02	二秒";
"03	三秒";
"04	四秒";
"05	五秒";
"06	六秒";
"07	七秒";
"08	八秒";
"09	九秒";
"10	十秒";
"11	十一秒";
"12	十二秒";
"13	十三秒";
"14	十四秒";
"15	十五秒";
"16	十六秒";
"17	十七秒";
"18	十八秒";
"19	十九秒";
"20	二十秒";
"21	二十一秒";
"22	二十二秒";
"23	二十三秒";
"24	二十四秒";
"25	二十五秒";
"26	二十六秒";
"27	二十七秒";
"28	二十八秒";
"29	二十九秒";
"30	三十秒";
"31	三十一秒";
"32	三十二秒";
"33	三十三秒";
"34	三十四秒";
"35	三十五秒";
"36	三十六秒";
"37	三十七秒";
"38	三十八秒";
"39	三十九秒";
"40	四十秒";
"41	四十一秒";
"42	四十二秒";
"43	四十三秒";
"44	四十四秒";
"45	四十五秒";
"46	四十六秒";
"47	四十七秒";
"48	四十八秒";
"49	四十九秒";
"50	五十秒";
"51	五十一秒";
"52	五十二秒";
"53	五十三秒";
"54	五十四秒";
"55	五十五秒";
"56	五十六秒";
"57	五十七秒";
"58	五十八秒";
"59	五十九秒"
].
