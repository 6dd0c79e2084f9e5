(** Generated by tools/gen_data.py from /repo/itn/japanese/data: the lines of each table. *)
From Coq Require Import List String.
Import ListNotations.
Local Open Scope string_scope.
(** itn/japanese/data/char/common_chinese_char.tsv *)
Definition ja_itn_char_common_chinese_char : list string := [
"尽";
"愼";
"霸";
"伯";
"健";
"市";
"盤";
"萬";
"致";
"奈";
"眺";
"衞";
"声";
"徹";
"衣";
"比";
"巡";
"革";
"謡";
"険";
"玄";
"獸";
"沈";
"商";
"住";
"艦";
"傳";
"祈";
"彰";
"渓";
"酸";
"刹";
"苗";
"齢";
"詠";
"號";
"盛";
"薰";
"昨";
"敢";
"背";
"陛";
"貌";
"等";
"怖";
"大";
"丘";
"到";
"緖";
"門";
"瀨";
"然";
"貢";
"録";
"裕";
"咲";
"耕";
"勅";
"梨";
"三";
"授";
"謹";
"斥";
"田";
"視";
"貸";
"緩";
"降";
"杉";
"濯";
"童";
"竊";
"薦";
"靴";
"既";
"胴";
"沸";
"渡";
"卑";
"方";
"爲";
"罪";
"図";
"命";
"俵";
"蛍";
"彙";
"甚";
"腕";
"圍";
"会";
"損";
"腸";
"俸";
"沃";
"寺";
"諦";
"峠";
"朕";
"鯨";
"泣";
"枢";
"確";
"蔵";
"熊";
"邪";
"遺";
"給";
"遲";
"辣";
"莊";
"發";
"陽";
"雑";
"把";
"昔";
"和";
"騎";
"種";
"卷";
"誰";
"乙";
"紅";
"零";
"汚";
"詰";
"蓄";
"剛";
"拉";
"遅";
"餌";
"渋";
"合";
"統";
"映";
"踊";
"漁";
"腰";
"瓦";
"王";
"存";
"孤";
"擇";
"旨";
"併";
"渴";
"還";
"知";
"餘";
"井";
"渦";
"戀";
"凶";
"餓";
"逸";
"亡";
"犯";
"舗";
"刻";
"今";
"嫌";
"形";
"売";
"詣";
"諸";
"廃";
"貧";
"忠";
"后";
"架";
"祥";
"雲";
"葉";
"加";
"化";
"心";
"錄";
"継";
"搾";
"般";
"蜂";
"捜";
"負";
"尾";
"空";
"洗";
"回";
"行";
"沖";
"太";
"偉";
"坊";
"刈";
"虎";
"恭";
"朴";
"暑";
"君";
"悠";
"尚";
"思";
"增";
"汰";
"虛";
"響";
"輪";
"漂";
"乘";
"書";
"打";
"捗";
"現";
"弐";
"邊";
"軍";
"植";
"鼻";
"頻";
"迭";
"蟲";
"擁";
"汽";
"官";
"干";
"抵";
"慣";
"傾";
"非";
"迫";
"微";
"是";
"拓";
"純";
"出";
"排";
"勤";
"薫";
"福";
"社";
"醜";
"諾";
"峽";
"浴";
"若";
"舟";
"契";
"聞";
"詮";
"庫";
"妊";
"帯";
"丙";
"以";
"塀";
"柵";
"詔";
"錮";
"瀧";
"塩";
"元";
"遡";
"煮";
"殉";
"脂";
"陶";
"去";
"癡";
"候";
"稲";
"慢";
"眠";
"穩";
"討";
"巾";
"訟";
"貳";
"勝";
"支";
"深";
"蚕";
"探";
"党";
"堂";
"乗";
"龍";
"象";
"數";
"澄";
"人";
"峰";
"魚";
"粹";
"喚";
"丹";
"輩";
"奮";
"墜";
"廉";
"懸";
"退";
"譽";
"概";
"裝";
"糾";
"械";
"喝";
"寛";
"丁";
"者";
"置";
"洋";
"九";
"繊";
"瞳";
"斤";
"夜";
"瘍";
"隆";
"爆";
"赦";
"御";
"哀";
"雌";
"提";
"姉";
"賓";
"歌";
"諧";
"芽";
"挨";
"仕";
"音";
"府";
"買";
"依";
"錦";
"祉";
"待";
"催";
"浮";
"塀";
"泥";
"櫻";
"払";
"麓";
"崖";
"切";
"物";
"織";
"西";
"縄";
"妙";
"賂";
"緻";
"郡";
"眞";
"悟";
"憲";
"製";
"郞";
"静";
"俊";
"県";
"團";
"基";
"車";
"叔";
"界";
"驅";
"陪";
"班";
"繁";
"苛";
"博";
"伏";
"二";
"稚";
"絵";
"月";
"賢";
"乳";
"滿";
"具";
"坂";
"兼";
"労";
"聲";
"讀";
"仰";
"隱";
"材";
"顯";
"英";
"免";
"沙";
"枠";
"弁";
"拙";
"組";
"砲";
"固";
"髄";
"歡";
"天";
"凍";
"副";
"肘";
"柱";
"款";
"崇";
"由";
"鍊";
"瀬";
"麵";
"軌";
"妹";
"林";
"徑";
"舷";
"匂";
"祉";
"拠";
"係";
"着";
"旧";
"盡";
"北";
"挙";
"赤";
"宝";
"阻";
"諮";
"疑";
"淡";
"毛";
"夕";
"将";
"近";
"斷";
"擴";
"鉛";
"惠";
"弟";
"極";
"妻";
"誉";
"珍";
"突";
"畳";
"放";
"券";
"圈";
"賓";
"妄";
"海";
"猫";
"嫡";
"紫";
"薄";
"褐";
"刷";
"壯";
"送";
"堕";
"挟";
"毆";
"憬";
"綻";
"獲";
"粧";
"晴";
"中";
"幣";
"柿";
"旅";
"飢";
"飛";
"本";
"症";
"紛";
"服";
"営";
"滞";
"但";
"罐";
"済";
"審";
"家";
"須";
"程";
"票";
"自";
"爽";
"米";
"寡";
"詳";
"角";
"泡";
"倒";
"稿";
"戦";
"災";
"距";
"捕";
"族";
"璧";
"坪";
"毎";
"阪";
"路";
"得";
"品";
"尻";
"蛇";
"樂";
"淑";
"茶";
"聴";
"学";
"施";
"運";
"海";
"策";
"弥";
"憾";
"莖";
"削";
"膳";
"隻";
"積";
"浜";
"濫";
"尋";
"臨";
"灣";
"詞";
"許";
"列";
"伎";
"豪";
"斉";
"婦";
"斗";
"芸";
"療";
"俳";
"評";
"幼";
"他";
"励";
"希";
"築";
"南";
"麻";
"寒";
"町";
"必";
"典";
"一";
"儀";
"匠";
"紹";
"呂";
"歷";
"艶";
"廣";
"煎";
"奔";
"頑";
"摯";
"剖";
"茨";
"怨";
"私";
"寶";
"減";
"陷";
"管";
"盜";
"條";
"留";
"込";
"玩";
"德";
"永";
"答";
"薬";
"軽";
"国";
"頭";
"頒";
"仏";
"罰";
"口";
"齡";
"龜";
"署";
"謙";
"麦";
"科";
"白";
"驗";
"岡";
"互";
"愛";
"囲";
"氷";
"卸";
"周";
"勉";
"翌";
"嚇";
"浅";
"案";
"直";
"姿";
"座";
"五";
"藝";
"索";
"獨";
"塞";
"所";
"礁";
"菌";
"呪";
"撃";
"拜";
"冒";
"伐";
"胆";
"没";
"濕";
"仙";
"佳";
"隣";
"栄";
"曆";
"楷";
"笛";
"吟";
"怠";
"寄";
"腹";
"弱";
"驛";
"灰";
"俗";
"那";
"改";
"器";
"亜";
"兒";
"凝";
"輕";
"連";
"操";
"取";
"駄";
"態";
"絲";
"訂";
"梅";
"昼";
"測";
"禍";
"糸";
"母";
"衰";
"春";
"拳";
"暑";
"漫";
"瑠";
"卓";
"押";
"儒";
"嵐";
"猛";
"麗";
"逸";
"奨";
"感";
"制";
"線";
"軟";
"圖";
"病";
"舌";
"懲";
"謁";
"硬";
"垂";
"肢";
"懷";
"江";
"鈍";
"葬";
"正";
"望";
"吉";
"踐";
"翻";
"末";
"脅";
"且";
"袋";
"電";
"芋";
"隅";
"却";
"碁";
"作";
"妃";
"貫";
"量";
"同";
"笑";
"栓";
"稱";
"遭";
"拒";
"敏";
"朽";
"試";
"競";
"長";
"筆";
"兵";
"召";
"皿";
"兩";
"禁";
"看";
"妖";
"揭";
"憂";
"壊";
"濟";
"涉";
"牧";
"卵";
"問";
"徒";
"畔";
"蓋";
"膽";
"土";
"己";
"叫";
"禮";
"建";
"頻";
"載";
"略";
"恒";
"暖";
"混";
"内";
"岐";
"財";
"箱";
"窓";
"硏";
"劍";
"奥";
"止";
"擧";
"応";
"苦";
"鮮";
"遍";
"傍";
"申";
"繁";
"抹";
"徵";
"濱";
"顧";
"結";
"上";
"否";
"采";
"藍";
"倍";
"幹";
"殘";
"歓";
"睦";
"犬";
"肖";
"逓";
"胸";
"塁";
"謎";
"成";
"鳴";
"錬";
"添";
"惧";
"雪";
"墓";
"特";
"波";
"百";
"寸";
"璃";
"債";
"詩";
"企";
"剤";
"木";
"喩";
"庭";
"広";
"避";
"新";
"葛";
"系";
"防";
"娘";
"卑";
"曇";
"星";
"冗";
"墨";
"吐";
"欠";
"彫";
"敕";
"賀";
"鑛";
"戚";
"鷄";
"頼";
"才";
"穗";
"猶";
"集";
"僚";
"壌";
"暮";
"段";
"蔑";
"騒";
"醸";
"懐";
"衝";
"従";
"偏";
"唾";
"侮";
"報";
"員";
"潛";
"粗";
"刃";
"利";
"畜";
"犧";
"戻";
"恵";
"繩";
"術";
"習";
"攝";
"腎";
"脳";
"遞";
"配";
"氣";
"國";
"劇";
"釣";
"應";
"劾";
"埼";
"鉢";
"媒";
"稼";
"級";
"勸";
"節";
"棋";
"穴";
"憶";
"四";
"選";
"封";
"妥";
"唆";
"網";
"複";
"酬";
"飯";
"據";
"尼";
"堤";
"泰";
"甁";
"至";
"縱";
"責";
"鹿";
"因";
"味";
"下";
"度";
"肝";
"場";
"序";
"鋳";
"村";
"尊";
"埋";
"底";
"瓣";
"写";
"抄";
"推";
"耐";
"断";
"崩";
"判";
"項";
"駆";
"既";
"擬";
"含";
"督";
"艷";
"嫉";
"努";
"杯";
"痩";
"辭";
"潮";
"蜜";
"業";
"続";
"育";
"演";
"謹";
"頃";
"椅";
"從";
"更";
"踏";
"屯";
"央";
"養";
"優";
"岳";
"舊";
"悦";
"赴";
"駅";
"凡";
"疊";
"晩";
"訓";
"經";
"楽";
"面";
"陰";
"違";
"險";
"源";
"簿";
"汎";
"矯";
"骸";
"錠";
"棄";
"湿";
"砂";
"寫";
"調";
"幻";
"穀";
"争";
"劑";
"睡";
"脊";
"剰";
"整";
"搬";
"戾";
"賦";
"括";
"郎";
"邸";
"慎";
"專";
"晝";
"昧";
"伺";
"章";
"教";
"阜";
"吏";
"週";
"換";
"臆";
"炊";
"満";
"勤";
"陣";
"腐";
"甲";
"餅";
"某";
"窟";
"勃";
"樓";
"臟";
"蛮";
"酷";
"賄";
"狙";
"恆";
"嘱";
"嬢";
"曖";
"宰";
"貝";
"患";
"遂";
"厄";
"桑";
"卽";
"總";
"蚊";
"攻";
"暇";
"較";
"漢";
"黃";
"壁";
"猿";
"昇";
"川";
"室";
"慮";
"前";
"団";
"越";
"敷";
"未";
"廳";
"注";
"億";
"画";
"失";
"慰";
"妬";
"姫";
"講";
"験";
"殴";
"示";
"拭";
"曉";
"銘";
"涼";
"発";
"情";
"石";
"勧";
"旬";
"傷";
"膜";
"靜";
"故";
"茂";
"澁";
"乾";
"髪";
"岸";
"詐";
"粛";
"仁";
"騷";
"豆";
"根";
"慕";
"績";
"剝";
"誤";
"秋";
"役";
"悼";
"悪";
"滝";
"休";
"挑";
"披";
"床";
"地";
"魂";
"史";
"馬";
"持";
"修";
"騰";
"夏";
"橋";
"氾";
"領";
"涙";
"忌";
"液";
"辯";
"滑";
"堪";
"幕";
"類";
"朱";
"千";
"経";
"殖";
"著";
"遵";
"識";
"圏";
"札";
"釀";
"丸";
"粘";
"禅";
"榮";
"握";
"歐";
"鏡";
"穏";
"導";
"話";
"虞";
"両";
"震";
"飲";
"的";
"骨";
"観";
"局";
"侯";
"寮";
"拡";
"採";
"汗";
"肉";
"桟";
"護";
"厚";
"矛";
"芯";
"安";
"藤";
"価";
"腦";
"廢";
"顎";
"缺";
"検";
"殊";
"欺";
"水";
"型";
"膨";
"薪";
"畑";
"規";
"菜";
"裁";
"參";
"姓";
"鎌";
"碑";
"醫";
"嚴";
"耗";
"諭";
"痛";
"祖";
"潰";
"鬱";
"分";
"別";
"購";
"寿";
"步";
"終";
"蹴";
"拍";
"囑";
"真";
"霊";
"浦";
"蠻";
"宇";
"對";
"里";
"侮";
"爪";
"麥";
"燃";
"廷";
"異";
"狭";
"淚";
"欧";
"河";
"狂";
"燥";
"縦";
"強";
"孝";
"則";
"兆";
"無";
"良";
"舞";
"糖";
"彈";
"湯";
"氏";
"實";
"秀";
"点";
"鬼";
"紋";
"戒";
"言";
"點";
"雨";
"槪";
"興";
"威";
"續";
"浄";
"脈";
"富";
"肯";
"慶";
"援";
"桜";
"芝";
"多";
"題";
"奉";
"在";
"閉";
"循";
"理";
"単";
"籠";
"随";
"盆";
"窮";
"轄";
"総";
"衷";
"後";
"便";
"銃";
"帶";
"訪";
"敬";
"荘";
"酒";
"影";
"砕";
"生";
"離";
"京";
"釋";
"帳";
"煮";
"怪";
"陸";
"殺";
"超";
"転";
"閥";
"透";
"嘲";
"弦";
"属";
"鍋";
"繼";
"付";
"並";
"惱";
"殺";
"壘";
"吸";
"淫";
"洞";
"質";
"磨";
"迎";
"稻";
"甘";
"跡";
"效";
"塚";
"効";
"恣";
"双";
"議";
"伴";
"殻";
"皇";
"署";
"庶";
"弄";
"況";
"譲";
"響";
"潟";
"扇";
"公";
"想";
"締";
"犠";
"陵";
"停";
"晶";
"証";
"宵";
"遷";
"搜";
"雄";
"毀";
"賛";
"令";
"受";
"層";
"環";
"朗";
"円";
"孔";
"拷";
"覆";
"監";
"酌";
"瞭";
"旺";
"羨";
"掛";
"剩";
"琴";
"男";
"牙";
"鋼";
"景";
"衡";
"勳";
"鎮";
"専";
"虹";
"巨";
"残";
"獣";
"俺";
"驚";
"潔";
"善";
"社";
"躍";
"紡";
"辱";
"仮";
"柔";
"困";
"黄";
"実";
"娠";
"算";
"挾";
"常";
"墮";
"投";
"傲";
"脇";
"遜";
"表";
"弧";
"該";
"叙";
"都";
"届";
"手";
"雜";
"事";
"准";
"廊";
"任";
"児";
"飽";
"賊";
"拶";
"尉";
"抜";
"遇";
"暴";
"差";
"勉";
"読";
"芳";
"帝";
"塊";
"張";
"漬";
"靈";
"字";
"刑";
"郭";
"頰";
"曹";
"寢";
"途";
"縮";
"与";
"消";
"韻";
"唐";
"記";
"願";
"歳";
"惨";
"涯";
"慌";
"賣";
"節";
"及";
"死";
"境";
"獵";
"牛";
"子";
"忙";
"熟";
"七";
"敏";
"携";
"対";
"履";
"縫";
"漏";
"日";
"租";
"保";
"際";
"台";
"塗";
"轉";
"駐";
"翼";
"暫";
"奧";
"鎖";
"婆";
"雰";
"折";
"値";
"悩";
"計";
"篤";
"毒";
"均";
"箋";
"婿";
"破";
"房";
"編";
"繕";
"鬭";
"覇";
"宅";
"反";
"誌";
"青";
"恐";
"冷";
"謝";
"森";
"鍵";
"慨";
"八";
"立";
"壇";
"第";
"焦";
"衆";
"鄕";
"繭";
"竜";
"募";
"課";
"贈";
"緯";
"初";
"域";
"肺";
"侶";
"勞";
"収";
"沼";
"齊";
"早";
"花";
"霧";
"暗";
"密";
"膝";
"帽";
"帥";
"慄";
"脱";
"害";
"老";
"勾";
"要";
"動";
"菊";
"恩";
"懇";
"沢";
"客";
"遮";
"相";
"約";
"舶";
"全";
"讓";
"果";
"玉";
"飼";
"滅";
"秘";
"疲";
"往";
"宣";
"贈";
"燒";
"承";
"臺";
"視";
"松";
"鐵";
"彌";
"主";
"傘";
"僧";
"穂";
"奬";
"旦";
"端";
"鉱";
"來";
"細";
"盗";
"乱";
"期";
"標";
"堆";
"樣";
"警";
"裂";
"霜";
"魔";
"宛";
"慘";
"政";
"店";
"万";
"察";
"鼓";
"漠";
"湧";
"径";
"觸";
"蠶";
"恋";
"隊";
"季";
"塚";
"隔";
"屬";
"捨";
"閲";
"佐";
"秩";
"麺";
"通";
"校";
"孃";
"紙";
"幾";
"體";
"武";
"割";
"箇";
"賞";
"褐";
"忍";
"僕";
"宜";
"奇";
"逐";
"状";
"挿";
"擔";
"荷";
"逝";
"克";
"流";
"盟";
"隆";
"機";
"圧";
"覧";
"桁";
"供";
"疎";
"盾";
"每";
"布";
"屋";
"穀";
"移";
"句";
"煩";
"竹";
"乞";
"釈";
"澤";
"凄";
"巢";
"礼";
"檢";
"平";
"貞";
"尺";
"酢";
"撮";
"務";
"泳";
"宙";
"朝";
"僅";
"匿";
"査";
"淨";
"賜";
"処";
"橫";
"盲";
"壽";
"棧";
"岬";
"曲";
"筒";
"喝";
"漆";
"鶏";
"顕";
"裾";
"枕";
"法";
"錯";
"針";
"絡";
"溫";
"意";
"高";
"束";
"儉";
"偶";
"勢";
"納";
"勘";
"唱";
"栽";
"順";
"敍";
"冊";
"津";
"介";
"酎";
"摘";
"墾";
"韓";
"娯";
"黑";
"辺";
"臭";
"陥";
"僞";
"變";
"光";
"酵";
"弊";
"了";
"賭";
"棚";
"時";
"暦";
"抱";
"熱";
"墨";
"溶";
"練";
"祭";
"鶴";
"位";
"鹽";
"撲";
"寝";
"危";
"惰";
"邦";
"胞";
"研";
"都";
"開";
"色";
"魅";
"隙";
"舎";
"粋";
"風";
"呉";
"佛";
"狀";
"腺";
"被";
"浸";
"喜";
"癒";
"午";
"憤";
"縛";
"宗";
"追";
"撤";
"謄";
"露";
"治";
"文";
"僧";
"指";
"血";
"硫";
"濃";
"貨";
"迅";
"秒";
"幸";
"能";
"］";
"彩";
"畝";
"兄";
"格";
"獻";
"側";
"碎";
"賴";
"擦";
"昭";
"易";
"語";
"彼";
"歸";
"雇";
"精";
"爵";
"圓";
"屈";
"漸";
"明";
"拐";
"穫";
"年";
"当";
"駒";
"摂";
"速";
"憧";
"康";
"挫";
"倉";
"名";
"辨";
"亂";
"右";
"重";
"街";
"据";
"屆";
"抑";
"個";
"淺";
"臣";
"棒";
"難";
"容";
"功";
"侵";
"羊";
"刊";
"漢";
"足";
"槽";
"壓";
"析";
"椎";
"間";
"次";
"嗅";
"緑";
"器";
"緒";
"居";
"扉";
"触";
"油";
"歴";
"矢";
"装";
"気";
"信";
"進";
"草";
"絶";
"齋";
"範";
"鑑";
"［";
"礎";
"顔";
"肪";
"綱";
"道";
"始";
"勲";
"輝";
"培";
"鉄";
"貪";
"譯";
"牲";
"温";
"友";
"士";
"免";
"志";
"皆";
"眼";
"迷";
"臼";
"登";
"絞";
"糧";
"創";
"箸";
"食";
"又";
"璽";
"辞";
"原";
"潜";
"余";
"谷";
"蒸";
"證";
"額";
"枯";
"設";
"郊";
"説";
"短";
"夢";
"池";
"嫁";
"拂";
"髓";
"遠";
"践";
"虫";
"不";
"冬";
"襃";
"席";
"独";
"使";
"裏";
"船";
"達";
"享";
"掘";
"件";
"禍";
"農";
"祕";
"群";
"觀";
"助";
"粒";
"十";
"拾";
"灯";
"炉";
"鍛";
"変";
"為";
"資";
"歯";
"遣";
"緣";
"欄";
"嶽";
"拝";
"瘦";
"補";
"者";
"剣";
"冥";
"黙";
"維";
"廊";
"完";
"繰";
"敵";
"惜";
"突";
"来";
"紺";
"揮";
"罵";
"悲";
"摩";
"溪";
"税";
"趣";
"豐";
"潤";
"卒";
"執";
"髮";
"凹";
"神";
"義";
"性";
"古";
"金";
"冶";
"輸";
"入";
"融";
"求";
"首";
"普";
"島";
"館";
"素";
"譜";
"收";
"雅";
"階";
"獄";
"批";
"欄";
"爐";
"用";
"復";
"酔";
"塑";
"愁";
"奪";
"祖";
"會";
"著";
"墳";
"權";
"働";
"醒";
"堀";
"華";
"適";
"造";
"緊";
"喪";
"串";
"跳";
"衛";
"謀";
"低";
"覽";
"似";
"肅";
"起";
"共";
"称";
"描";
"煙";
"餠";
"快";
"愚";
"交";
"荒";
"豫";
"酪";
"身";
"坑";
"羞";
"岩";
"銀";
"航";
"神";
"戰";
"掃";
"弾";
"民";
"述";
"模";
"訴";
"省";
"闘";
"予";
"層";
"慈";
"唯";
"泊";
"升";
"射";
"眉";
"猟";
"侍";
"單";
"胃";
"硝";
"益";
"誇";
"艇";
"美";
"何";
"桃";
"飜";
"見";
"竝";
"山";
"皮";
"揚";
"學";
"預";
"照";
"厘";
"綿";
"敗";
"守";
"亭";
"晚";
"炭";
"献";
"謁";
"劣";
"尿";
"野";
"借";
"珠";
"償";
"院";
"障";
"縣";
"黒";
"錢";
"偵";
"旋";
"誠";
"銭";
"惡";
"訃";
"外";
"託";
"力";
"峡";
"増";
"戴";
"當";
"軒";
"最";
"式";
"腫";
"女";
"畏";
"談";
"搭";
"如";
"沿";
"逆";
"枚";
"律";
"世";
"陳";
"勵";
"好";
"憩";
"爭";
"走";
"委";
"促";
"宮";
"虚";
"掌";
"費";
"裸";
"畫";
"隨";
"扶";
"捉";
"厳";
"滯";
"囚";
"踪";
"丈";
"亀";
"嘆";
"征";
"清";
"覚";
"痕";
"搖";
"例";
"措";
"壹";
"伸";
"醉";
"郵";
"歩";
"惑";
"鳥";
"豚";
"狹";
"呈";
"鋭";
"渉";
"激";
"左";
"占";
"体";
"恨";
"區";
"捻";
"湖";
"痘";
"累";
"番";
"控";
"殿";
"戸";
"可";
"有";
"先";
"勇";
"難";
"偽";
"與";
"過";
"鈴";
"診";
"壮";
"愉";
"園";
"貴";
"泌";
"倂";
"禪";
"誓";
"藏";
"罷";
"翁";
"關";
"粉";
"巧";
"姻";
"率";
"臭";
"悔";
"区";
"雙";
"贊";
"再";
"我";
"藻";
"默";
"倹";
"準";
"技";
"孫";
"担";
"返";
"啓";
"賃";
"鎭";
"巣";
"溝";
"択";
"横";
"洪";
"活";
"寂";
"解";
"丼";
"婚";
"念";
"謠";
"宴";
"港";
"喫";
"練";
"濁";
"久";
"決";
"引";
"刺";
"將";
"香";
"職";
"凸";
"畿";
"祈";
"逮";
"請";
"吹";
"烈";
"類";
"昆";
"籍";
"宿";
"幽";
"様";
"派";
"倫";
"曽";
"臓";
"父";
"楼";
"参";
"羽";
"頂";
"巻";
"憎";
"褒";
"急";
"諸";
"机";
"梅";
"遊";
"息";
"条";
"誘";
"聖";
"旗";
"菓";
"唇";
"各";
"定";
"梗";
"向";
"癖";
"縁";
"窃";
"嘆";
"像";
"貯";
"延";
"肌";
"産";
"少";
"充";
"片";
"汁";
"胎";
"城";
"半";
"湾";
"庁";
"咽";
"郷";
"筋";
"滴";
"柄";
"祝";
"関";
"祥";
"振";
"乏";
"肥";
"忘";
"磁";
"散";
"塔";
"塾";
"包";
"窒";
"祝";
"襲";
"襟";
"符";
"樞";
"懲";
"扱";
"豊";
"究";
"斬";
"東";
"肩";
"耳";
"痴";
"棺";
"柳";
"虜";
"渇";
"擊";
"染";
"溺";
"羅";
"壤";
"怒";
"假";
"附";
"絹";
"協";
"痢";
"逃";
"鑄";
"股";
"寧";
"喉";
"就";
"徐";
"奴";
"代";
"泉";
"帆";
"核";
"除";
"棟";
"噴";
"認";
"夫";
"救";
"價";
"仲";
"辛";
"工";
"誕";
"告";
"伝";
"替";
"紀";
"浪";
"即";
"弓";
"号";
"亞";
"堅";
"板";
"庸";
"部";
"雷";
"斎";
"炎";
"司";
"目";
"匹";
"螢";
"鐘";
"販";
"斑";
"閣";
"拔";
"樹";
"窯";
"聽";
"傑";
"呼";
"州";
"招";
"缶";
"暁";
"壱";
"齒";
"碑";
"嗣";
"数";
"哺";
"揺";
"營";
"寬";
"帰";
"抽";
"展";
"脚";
"斜";
"媛";
"飾";
"医";
"唄";
"料";
"需";
"藩";
"弔";
"貿";
"曾";
"妨";
"瓶";
"拘";
"権";
"萎";
"虜";
"稽";
"論";
"欲";
"插";
"疫";
"師";
"朗";
"綠";
"限";
"疾";
"繪";
"狩";
"𠮟";
"壞";
"憎";
"構";
"頓";
"膚";
"纖";
"燈";
"栃";
"銅";
"版";
"垣";
"虐";
"抗";
"備";
"處";
"冠";
"接";
"六";
"殼";
"閑";
"親";
"隷";
"奏";
"貼";
"慨";
"藥";
"落";
"賠";
"曜";
"闇";
"戲";
"幅";
"考";
"刀";
"徳";
"焼";
"恥";
"塡";
"茎";
"掲";
"徴";
"小";
"黨";
"簡";
"隠";
"訳";
"株";
"軸";
"崎";
"球";
"倣";
"火";
"枝";
"覺";
"袖";
"紳";
"印";
"釜";
"哲";
"戯";
"蔽";
"悔";
"福";
"瞬";
"滋"
].
(** itn/japanese/data/char/fullwidth_to_halfwidth.tsv *)
Definition ja_itn_char_fullwidth_to_halfwidth : list string := [
"，	,";
"。	.";
"．	.";
"“	""";
"”	""";
"！	!";
"＂	""";
"＃	#";
"％	%";
"＆	&";
"＇	'";
"（	(";
"）	)";
"＊	*";
"＋	+";
"－	-";
"／	/";
"：	:";
"；	;";
"＜	<";
"＝	=";
"＞	>";
"？	?";
"＠	@";
"＼	\";
"＾	^";
"＿	_";
"｀	`";
"｛	{";
"｜	|";
"｝	}";
"～	~";
"＄	$";
"０	0";
"１	1";
"２	2";
"３	3";
"４	4";
"５	5";
"６	6";
"７	7";
"８	8";
"９	9";
"ａ	a";
"Ａ	A";
"ｂ	b";
"Ｂ	B";
"ｃ	c";
"Ｃ	C";
"ｄ	d";
"Ｄ	D";
"ｅ	e";
"Ｅ	E";
"ｆ	f";
"Ｆ	F";
"ｇ	g";
"Ｇ	G";
"ｈ	h";
"Ｈ	H";
"ｉ	i";
"Ｉ	I";
"ｊ	j";
"Ｊ	J";
"ｋ	k";
"Ｋ	K";
"ｌ	l";
"Ｌ	L";
"ｍ	m";
"Ｍ	M";
"ｎ	n";
"Ｎ	N";
"ｏ	o";
"Ｏ	O";
"ｐ	p";
"Ｐ	P";
"ｑ	q";
"Ｑ	Q";
"ｒ	r";
"Ｒ	R";
"ｓ	s";
"Ｓ	S";
"ｔ	t";
"Ｔ	T";
"ｕ	u";
"Ｕ	U";
"ｖ	v";
"Ｖ	V";
"ｗ	w";
"Ｗ	W";
"ｘ	x";
"Ｘ	X";
"ｙ	y";
"Ｙ	Y";
"ｚ	z";
"Ｚ	Z"
].
(** itn/japanese/data/char/hiragana_and_katakana.tsv *)
Definition ja_itn_char_hiragana_and_katakana : list string := [
"あ";
"い";
"う";
"え";
"お";
"か";
"き";
"く";
"け";
"こ";
"さ";
"し";
"す";
"せ";
"そ";
"た";
"ち";
"つ";
"て";
"と";
"な";
"に";
"ぬ";
"ね";
"の";
"は";
"ひ";
"ふ";
"へ";
"ほ";
"ま";
"み";
"む";
"め";
"も";
"や";
"ゆ";
"よ";
"ら";
"り";
"る";
"れ";
"ろ";
"わ";
"を";
"ん";
"ア";
"イ";
"ウ";
"エ";
"オ";
"カ";
"キ";
"ク";
"ケ";
"コ";
"サ";
"シ";
"ス";
"セ";
"ソ";
"タ";
"チ";
"ツ";
"テ";
"ト";
"ナ";
"ニ";
"ヌ";
"ネ";
"ノ";
"ハ";
"ヒ";
"フ";
"ヘ";
"ホ";
"マ";
"ミ";
"ム";
"メ";
"モ";
"ヤ";
"ユ";
"ヨ";
"ラ";
"リ";
"ル";
"レ";
"ロ";
"ワ";
"ヲ";
"ン";
"が";
"ぎ";
"ぐ";
"げ";
"ご";
"ざ";
"じ";
"ず";
"ぜ";
"ぞ";
"だ";
"ぢ";
"づ";
"で";
"ど";
"ば";
"び";
"ぶ";
"べ";
"ぼ";
"ぱ";
"ぴ";
"ぷ";
"ぺ";
"ぽ";
"ガ";
"ギ";
"グ";
"ゲ";
"ゴ";
"ザ";
"ジ";
"ズ";
"ゼ";
"ゾ";
"ダ";
"ヂ";
"ヅ";
"デ";
"ド";
"バ";
"ビ";
"ブ";
"ベ";
"ボ";
"パ";
"ピ";
"プ";
"ペ";
"ポ";
"ャ";
"ァ";
"ィ";
"ュ";
"ッ";
"ゥ";
"ェ";
"ョ";
"ォ";
"ぁ";
"ぃ";
"ぅ";
"ぇ";
"ぉ";
"っ";
"ゃ";
"ゅ";
"ょ"
].
(** itn/japanese/data/char/oov_tags.tsv *)
Definition ja_itn_char_oov_tags : list string := [
"<oov>	</oov>"
].
(** itn/japanese/data/char/punctuations_ja.tsv *)
Definition ja_itn_char_punctuations_ja : list string := [
"！";
"？";
"｡";
"。";
"＂";
"＃";
"＄";
"％";
"＆";
"＇";
"（";
"）";
"＊";
"＋";
"，";
"－";
"／";
"：";
"；";
"＜";
"＝";
"＞";
"＠";
"［";
"＼";
"］";
"＾";
"＿";
"｀";
"｛";
"｜";
"｝";
"～";
"｟";
"｠";
"｢";
"｣";
"､";
"、";
"〃";
"》";
"「";
"」";
"『";
"』";
"【";
"】";
"〔";
"〕";
"〖";
"〗";
"〘";
"〙";
"〚";
"〛";
"〜";
"〝";
"〞";
"〟";
"〰";
"–";
"—";
"‘";
"’";
"‛";
"“";
"”";
"„";
"‟";
"…";
"‧";
"﹏"
].
(** itn/japanese/data/date/day.tsv *)
Definition ja_itn_date_day : list string := [
"一	1";
"二	2";
"三	3";
"四	4";
"五	5";
"六	6";
"七	7";
"八	8";
"九	9";
"十	10";
"十一	11";
"十二	12";
"十三	13";
"十四	14";
"十五	15";
"十六	16";
"十七	17";
"十八	18";
"十九	19";
"二十	20";
"二十一	21";
"二十二	22";
"二十三	23";
"二十四	24";
"二十五	25";
"二十六	26";
"二十七	27";
"二十八	28";
"二十九	29";
"三十	30";
"三十一	31"
].
(** itn/japanese/data/date/month.tsv *)
Definition ja_itn_date_month : list string := [
"一	1";
"二	2";
"三	3";
"四	4";
"五	5";
"六	6";
"七	7";
"八	8";
"九	9";
"十	10";
"十一	11";
"十二	12"
].
(** itn/japanese/data/date/week.tsv *)
Definition ja_itn_date_week : list string := [
"月曜日	月";
"月曜	月";
"火曜日	火";
"火曜	火";
"水曜日	水";
"水曜	水";
"木曜日	木";
"木曜	木";
"金曜日	金";
"金曜	金";
"土曜日	土";
"土曜	土";
"日曜日	日";
"日曜	日"
].
(** itn/japanese/data/default/blacklist.tsv *)
Definition ja_itn_default_blacklist : list string := [

].
(** itn/japanese/data/default/whitelist.tsv *)
Definition ja_itn_default_whitelist : list string := [
"十三湖";
"一月三舟";
"一日之長";
"十八番";
"百人一首";
"二百十日";
"三度笠";
"千円札";
"二十面相";
"七つの海";
"四国八十八箇所";
"五箇山";
"千本鳥居";
"五月雨";
"六本木ヒルズ";
"七つの大罪";
"千本格子";
"二枚目俳優";
"六本木アートナイト";
"七人の侍";
"五月祭";
"七人の姉妹";
"十八番目の男"
].
(** itn/japanese/data/math/operator.tsv *)
Definition ja_itn_math_operator : list string := [
"カケル	×";
"負	-";
"マイナス	-";
"プラス	+";
"イコール	=";
"ワル	÷";
"から	~";
"対	:"
].
(** itn/japanese/data/measure/unit_en.tsv *)
Definition ja_itn_measure_unit_en : list string := [
"華氏	f";
"摂氏	c";
"キロメートル	km";
"千キロメートル	km";
"メートル	m";
"センチ	cm";
"インチ	インチ";
"リットル	L";
"ジュール	J";
"ワット	W";
"アンペア	A";
"ボルト	V";
"オーム	Ω";
"アンペア毎メートル	A/m";
"ビット	bit";
"バイト	Byte";
"メガバイト	MB";
"キロバイト	KB";
"ギガバイト	GB";
"度	℃";
"立方センチメートル	cm³";
"ドット	dpi";
"ケルビン	K";
"センチメートル	cm";
"ミリメートル	mm";
"ヘクタール	ha";
"マイル	mi";
"平方メートル	m²";
"平方キロメートル	km²";
"足	ft";
"パーセント	%";
"ヘルツ	hz";
"キロワット	kw";
"馬力	hp";
"ミリグラム	mg";
"キログラム	kg";
"キロ	kg";
"ギガヘルツ	ghz";
"キロヘルツ	khz";
"メガヘルツ	mhz";
"ボルト	v";
"メガクーロン	mc";
"ナノメートル	nm";
"毎分回転数	rpm";
"ミリアンペア	mA";
"パーセント	%";
"キロワット時	kwh";
"立方メートル	m³";
"時速マイル	mph";
"テラワット	tw";
"ミリボルト	mv";
"メガワット	mw";
"マイクロメータ	μm";
"テラバイト	TB";
"グラム	g";
"ダルトン	da";
"雰囲気	atm";
"オーム	ω";
"デシベル	dB";
"ペタ秒	ps";
"オンス	oz";
"ヘクトリットル	hl";
"マイクログラム	μg";
"ペタグラム	pg";
"ギガバイト	gb";
"キロビット	kb";
"電子ボルト	ev";
"メガバイト	mb";
"キロバイト	kb";
"キロビット/秒	kbps";
"毎秒メガビット	mbps";
"結石	st";
"キロリットル	kl";
"テラジュール	tj";
"キロボルト	kv";
"メガボルト	mv";
"キロニュートン	kn";
"メガメーター	mm";
"天文単位	au";
"ヤード	yd";
"ラジアン	rad";
"ルーメン	lm";
"ヘクト秒	hs";
"モル	mol";
"ギガパスカル	gpa";
"ミリリットル	ml";
"ギガワット	gw";
"メガアンペア	ma";
"結び目	kt";
"キログラム力	kgf";
"ナノグラム	ng";
"ナノ秒	ns";
"メガシーメンス	ms";
"バー	bar";
"ギガリットル	gl";
"マイクロ秒	μs";
"デシアンペア	da";
"パスカル	pa";
"デシ秒	ds";
"ミリ秒	ms";
"デシメートル	dm";
"立方デシメートル	dm³";
"原子質量単位	amu";
"メガビット	mb";
"メガファラッド	mf";
"ベクレル	bq";
"ペタビット	pb";
"平方ミリメートル	mm²";
"平方センチメートル	cm²";
"平方マイル	sq mi";
"平方フィート	sq ft";
"キロパスカル	kpa";
"カンデラ	cd";
"テラリットル	tl";
"メガ秒	ms";
"メガパスカル	mpa";
"ペタメーター	pm";
"ペタバイト	pb";
"ギガワットアワー	gwh";
"キロカロリー	kcal";
"グレー	gy";
"シーベルト	sv";
"ハンドレッド	cwt"
].
(** itn/japanese/data/measure/unit_ja.tsv *)
Definition ja_itn_measure_unit_ja : list string := [
"つ";
"枚";
"部";
"台";
"杯";
"匹";
"本";
"階";
"個";
"箇";
"円";
"个";
"ヶ";
"面";
"名";
"人";
"歳";
"才";
"冊";
"話";
"秒";
"分";
"月";
"泊";
"時";
"時間";
"日";
"ヶ月";
"箇月";
"年";
"日";
"週";
"倍";
"番";
"度";
"畳";
"回";
"年前";
"年後";
"年以内";
"平方";
"平方メートル";
"立方";
"立方メートル";
"キロ";
"キロメトル";
"世紀";
"年代"
].
(** itn/japanese/data/money/symbol.tsv *)
Definition ja_itn_money_symbol : list string := [
"ドル	$";
"ポンド	£";
"ポンド	￡";
"バーツ	฿";
"ユーロ	€";
"インドルピー	₹";
"ルーブル	₽";
"スイスフラン	CHF";
"レアル	R$"
].
(** itn/japanese/data/number/digit.tsv *)
Definition ja_itn_number_digit : list string := [
"一	1";
"二	2";
"三	3";
"四	4";
"五	5";
"六	6";
"七	7";
"八	8";
"九	9"
].
(** itn/japanese/data/number/dot.tsv *)
Definition ja_itn_number_dot : list string := [
"点	."
].
(** itn/japanese/data/number/hundred.tsv *)
Definition ja_itn_number_hundred : list string := [
"百"
].
(** itn/japanese/data/number/hundred_digit.tsv *)
Definition ja_itn_number_hundred_digit : list string := [
"百一	101";
"百二	102";
"百三	103";
"百四	104";
"百五	105";
"百六	106";
"百七	107";
"百八	108";
"百九	109"
].
(** itn/japanese/data/number/sign.tsv *)
Definition ja_itn_number_sign : list string := [
"プラス	+";
"プラスマイナス	±";
"マイナス	-";
"负の	-"
].
(** itn/japanese/data/number/teen.tsv *)
Definition ja_itn_number_teen : list string := [
"十	10";
"十一	11";
"十二	12";
"十三	13";
"十四	14";
"十五	15";
"十六	16";
"十七	17";
"十八	18";
"十九	19"
].
(** itn/japanese/data/number/thousands.tsv *)
Definition ja_itn_number_thousands : list string := [
"千";
"万";
"亿";
"兆";
"京";
"垓";
"秭";
"穰";
"沟"
].
(** itn/japanese/data/number/ties.tsv *)
Definition ja_itn_number_ties : list string := [
"二十	2";
"三十	3";
"四十	4";
"五十	5";
"六十	6";
"七十	7";
"八十	8";
"九十	9"
].
(** itn/japanese/data/number/zero.tsv *)
Definition ja_itn_number_zero : list string := [
"〇	0";
"零	0";
"ゼロ	0";
"れい	0"
].
(** itn/japanese/data/time/hour.tsv *)
Definition ja_itn_time_hour : list string := [
"一時	1";
"两時	2";
"三時	3";
"四時	4";
"五時	5";
"六時	6";
"七時	7";
"八時	8";
"九時	9";
"零時	0";
"一時	1";
"两時	2";
"三時	3";
"四時	4";
"五時	5";
"六時	6";
"七時	7";
"八時	8";
"九時	9";
"十時	10";
"十一時	11";
"十二時	12";
"十三時	13";
"十四時	14";
"十五時	15";
"十六時	16";
"十七時	17";
"十八時	18";
"十九時	19";
"二十時	20";
"二十一時	21";
"二十二時	22";
"二十三時	23";
"二十四時	24"
].
(** itn/japanese/data/time/minute.tsv *)
Definition ja_itn_time_minute : list string := [
"一分	1";
"二分	2";
"三分	3";
"四分	4";
"五分	5";
"六分	6";
"七分	7";
"八分	8";
"九分	9";
"十分	10";
"十一分	11";
"十二分	12";
"十三分	13";
"十四分	14";
"十五分	15";
"十六分	16";
"十七分	17";
"十八分	18";
"十九分	19";
"二十分	20";
"二十一分	21";
"二十二分	22";
"二十三分	23";
"二十四分	24";
"二十五分	25";
"二十六分	26";
"二十七分	27";
"二十八分	28";
"二十九分	29";
"三十分	30";
"三十一分	31";
"三十二分	32";
"三十三分	33";
"三十四分	34";
"三十五分	35";
"三十六分	36";
"三十七分	37";
"三十八分	38";
"三十九分	39";
"四十分	40";
"四十一分	41";
"四十二分	42";
"四十三分	43";
"四十四分	44";
"四十五分	45";
"四十六分	46";
"四十七分	47";
"四十八分	48";
"四十九分	49";
"五十分	50";
"五十一分	51";
"五二十分	52";
"五十三分	53";
"五十四分	54";
"五十五分	55";
"五十六分	56";
"五十七分	57";
"五十八分	58";
"五十九分	59";
"六十分	60"
].
(** itn/japanese/data/time/second.tsv *)
Definition ja_itn_time_second : list string := [
"一秒	1";
"二秒	2";
"三秒	3";
"四秒	4";
"五秒	5";
"六秒	6";
"七秒	7";
"八秒	8";
"九秒	9";
"十秒	10";
"十一秒	11";
"十二秒	12";
"十三秒	13";
"十四秒	14";
"十五秒	15";
"十六秒	16";
"十七秒	17";
"十八秒	18";
"十九秒	19";
"二十秒	20";
"二十一秒	21";
"二十二秒	22";
"二十三秒	23";
"二十四秒	24";
"二十五秒	25";
"二十六秒	26";
"二十七秒	27";
"二十八秒	28";
"二十九秒	29";
"三十秒	30";
"三十一秒	31";
"三十二秒	32";
"三十三秒	33";
"三十四秒	34";
"三十五秒	35";
"三十六秒	36";
"三十七秒	37";
"三十八秒	38";
"三十九秒	39";
"四十秒	40";
"四十一秒	41";
"四十二秒	42";
"四十三秒	43";
"四十四秒	44";
"四十五秒	45";
"四十六秒	46";
"四十七秒	47";
"四十八秒	48";
"四十九秒	49";
"五十秒	50";
"五十一秒	51";
"五二十秒	52";
"五十三秒	53";
"五十四秒	54";
"五十五秒	55";
"五十六秒	56";
"五十七秒	57";
"五十八秒	58";
"五十九秒	59";
"六十秒	60"
].
