(** The voxel files shipped with the program, redeclipse/prefabs/<theme>/<name>.vox, byte for
    byte.  Each number holds up to 32 bytes: its first hexadecimal digit 1 is a mark, the digits
    after it are the bytes in the order of the file, two digits each. *)
From Coq Require Import ZArith List.
Import ListNotations.
Local Open Scope Z_scope.

(** redeclipse/prefabs/castle/castle_flag_room.vox (24088 bytes) *)
Definition vox_castle_castle_flag_room : list Z := [
0x1564f5820960000004d41494e00000000045e000053495a450c00000000000000;
0x118000000180000001100000058595a49d4590000000000007416000000000001;
0x10100000102000001030000010400000105000001060000010700000108000001;
0x1090000010a0000010b0000010c0000010d0000010e0000010f00000110000001;
0x11100000112000001130000011400000115000001160000011700000100010001;
0x10101000102010001030100010401000105010001060100010701000108010001;
0x1090100010a0100010b0100010c0100010d0100010e0100010f01000110010001;
0x11101000112010001130100011401000115010001160100011701000100020001;
0x10102000102020001030200010402000105020001060200010702000108020001;
0x1090200010a0200010b0200010c0200010d0200010e0200010f02000110020001;
0x11102000112020001130200011402000115020001160200011702000100030001;
0x10103000102030001030300010403000105030001060300010703000108030001;
0x1090300010a0300010b0300010c0300010d0300010e0300010f03000110030001;
0x11103000112030001130300011403000115030001160300011703000100040001;
0x10104000102040001030400010404000105040001060400010704000108040001;
0x1090400010a0400010b0400010c0400010d0400010e0400010f04000110040001;
0x11104000112040001130400011404000115040001160400011704000100050001;
0x10105000102050001030500010405000105050001060500010705000108050001;
0x1090500010a0500010b0500010c0500010d0500010e0500010f05000110050001;
0x11105000112050001130500011405000115050001160500011705000100060001;
0x10106000102060001030600010406000105060001060600010706000108060001;
0x1090600010a0600010b0600010c0600010d0600010e0600010f06000110060001;
0x11106000112060001130600011406000115060001160600011706000100070001;
0x10107000102070001030700010407000105070001060700010707000108070001;
0x1090700010a0700010b0700010c0700010d0700010e0700010f07000110070001;
0x11107000112070001130700011407000115070001160700011707000100080001;
0x10108000102080001030800010408000105080001060800010708000108080001;
0x1090800010a0800010b0800010c0800010d0800010e0800010f08000110080001;
0x11108000112080001130800011408000115080001160800011708000100090001;
0x10109000102090001030900010409000105090001060900010709000108090001;
0x1090900260a0900260b0900260c0900260d0900260e0900260f09000110090001;
0x111090001120900011309000114090001150900011609000117090001000a0001;
0x1010a0001020a0001030a0001040a0001050a0001060a0001070a0001080a0001;
0x1090a00260a0a00260b0a00260c0a00260d0a00260e0a00260f0a0001100a0001;
0x1110a0001120a0001130a0001140a0001150a0001160a0001170a0001000b0001;
0x1010b0001020b0001030b0001040b0001050b0001060b0001070b0001080b0001;
0x1090b00260a0b00260b0b00260c0b00260d0b00260e0b00260f0b0001100b0001;
0x1110b0001120b0001130b0001140b0001150b0001160b0001170b0001000c0001;
0x1010c0001020c0001030c0001040c0001050c0001060c0001070c0001080c0001;
0x1090c00260a0c00260b0c00260c0c00260d0c00260e0c00260f0c0001100c0001;
0x1110c0001120c0001130c0001140c0001150c0001160c0001170c0001000d0001;
0x1010d0001020d0001030d0001040d0001050d0001060d0001070d0001080d0001;
0x1090d00260a0d00260b0d00260c0d00260d0d00260e0d00260f0d0001100d0001;
0x1110d0001120d0001130d0001140d0001150d0001160d0001170d0001000e0001;
0x1010e0001020e0001030e0001040e0001050e0001060e0001070e0001080e0001;
0x1090e00260a0e00260b0e00260c0e00260d0e00260e0e00260f0e0001100e0001;
0x1110e0001120e0001130e0001140e0001150e0001160e0001170e0001000f0001;
0x1010f0001020f0001030f0001040f0001050f0001060f0001070f0001080f0001;
0x1090f00010a0f00010b0f00010c0f00010d0f00010e0f00010f0f0001100f0001;
0x1110f0001120f0001130f0001140f0001150f0001160f0001170f000100100001;
0x10110000102100001031000010410000105100001061000010710000108100001;
0x1091000010a1000010b1000010c1000010d1000010e1000010f10000110100001;
0x11110000112100001131000011410000115100001161000011710000100110001;
0x10111000102110001031100010411000105110001061100010711000108110001;
0x1091100010a1100010b1100010c1100010d1100010e1100010f11000110110001;
0x11111000112110001131100011411000115110001161100011711000100120001;
0x10112000102120001031200010412000105120001061200010712000108120001;
0x1091200010a1200010b1200010c1200010d1200010e1200010f12000110120001;
0x11112000112120001131200011412000115120001161200011712000100130001;
0x10113000102130001031300010413000105130001061300010713000108130001;
0x1091300010a1300010b1300010c1300010d1300010e1300010f13000110130001;
0x11113000112130001131300011413000115130001161300011713000100140001;
0x10114000102140001031400010414000105140001061400010714000108140001;
0x1091400010a1400010b1400010c1400010d1400010e1400010f14000110140001;
0x11114000112140001131400011414000115140001161400011714000100150001;
0x10115000102150001031500010415000105150001061500010715000108150001;
0x1091500010a1500010b1500010c1500010d1500010e1500010f15000110150001;
0x11115000112150001131500011415000115150001161500011715000100160001;
0x10116000102160001031600010416000105160001061600010716000108160001;
0x1091600010a1600010b1600010c1600010d1600010e1600010f16000110160001;
0x11116000112160001131600011416000115160001161600011716000100170001;
0x10117000102170001031700010417000105170001061700010717000108170001;
0x1091700010a1700010b1700010c1700010d1700010e1700010f17000110170001;
0x11117000112170001131700011417000115170001161700011717000100000101;
0x10100010102000101030001010400010105000101060001010700010108000101;
0x1090001010a0001010b0001010c0001010d0001010e0001010f00010110000101;
0x11100010112000101130001011400010115000101160001011700010100010101;
0x10101010102010101030101010401010105010101060101010701010108010101;
0x1090101010a0101010b0101010c0101010d0101010e0101010f01010110010101;
0x11101010112010101130101011401010115010101160101011701010100020101;
0x10102010102020101030201010402010105020101060201010702010108020101;
0x1090201010a0201010b0201010c0201010d0201010e0201010f02010110020101;
0x11102010112020101130201011402010115020101160201011702010100030101;
0x10103010102030101030301010403010105030101060301010703010108030101;
0x1090301010a0301010b0301010c0301010d0301010e0301010f03010110030101;
0x11103010112030101130301011403010115030101160301011703010100040101;
0x10104010102040101030401010404010105040101060401010704010108040101;
0x1090401010a0401010b0401010c0401010d0401010e0401010f04010110040101;
0x11104010112040101130401011404010115040101160401011704010100050101;
0x10105010102050101030501010405010105050101060501010705010108050101;
0x1090501010a0501010b0501010c0501010d0501010e0501010f05010110050101;
0x11105010112050101130501011405010115050101160501011705010100060101;
0x10106010102060101030601010406010105060101060601010706010108060101;
0x1090601010a0601010b0601010c0601010d0601010e0601010f06010110060101;
0x11106010112060101130601011406010115060101160601011706010100070101;
0x10107010102070101030701010407010105070101060701010707010108070101;
0x1090701010a0701010b0701010c0701010d0701010e0701010f07010110070101;
0x11107010112070101130701011407010115070101160701011707010100080101;
0x10108010102080101030801010408010105080101060801010708010108080101;
0x1090801010a0801010b0801010c0801010d0801010e0801010f08010110080101;
0x11108010112080101130801011408010115080101160801011708010100090101;
0x10109010102090101030901010409010105090101060901010709010108090101;
0x1090901260a0901260b0901260c0901260d0901260e0901260f09010110090101;
0x111090101120901011309010114090101150901011609010117090101000a0101;
0x1010a0101020a0101030a0101040a0101050a0101060a0101070a0101080a0101;
0x1090a01260a0a01260b0a01260c0a01260d0a01260e0a01260f0a0101100a0101;
0x1110a0101120a0101130a0101140a0101150a0101160a0101170a0101000b0101;
0x1010b0101020b0101030b0101040b0101050b0101060b0101070b0101080b0101;
0x1090b01260a0b01260b0b01260c0b01260d0b01260e0b01260f0b0101100b0101;
0x1110b0101120b0101130b0101140b0101150b0101160b0101170b0101000c0101;
0x1010c0101020c0101030c0101040c0101050c0101060c0101070c0101080c0101;
0x1090c01260a0c01260b0c01260c0c01260d0c01260e0c01260f0c0101100c0101;
0x1110c0101120c0101130c0101140c0101150c0101160c0101170c0101000d0101;
0x1010d0101020d0101030d0101040d0101050d0101060d0101070d0101080d0101;
0x1090d01260a0d01260b0d01260c0d01260d0d01260e0d01260f0d0101100d0101;
0x1110d0101120d0101130d0101140d0101150d0101160d0101170d0101000e0101;
0x1010e0101020e0101030e0101040e0101050e0101060e0101070e0101080e0101;
0x1090e01260a0e01260b0e01260c0e01260d0e01260e0e01260f0e0101100e0101;
0x1110e0101120e0101130e0101140e0101150e0101160e0101170e0101000f0101;
0x1010f0101020f0101030f0101040f0101050f0101060f0101070f0101080f0101;
0x1090f01010a0f01010b0f01010c0f01010d0f01010e0f01010f0f0101100f0101;
0x1110f0101120f0101130f0101140f0101150f0101160f0101170f010100100101;
0x10110010102100101031001010410010105100101061001010710010108100101;
0x1091001010a1001010b1001010c1001010d1001010e1001010f10010110100101;
0x11110010112100101131001011410010115100101161001011710010100110101;
0x10111010102110101031101010411010105110101061101010711010108110101;
0x1091101010a1101010b1101010c1101010d1101010e1101010f11010110110101;
0x11111010112110101131101011411010115110101161101011711010100120101;
0x10112010102120101031201010412010105120101061201010712010108120101;
0x1091201010a1201010b1201010c1201010d1201010e1201010f12010110120101;
0x11112010112120101131201011412010115120101161201011712010100130101;
0x10113010102130101031301010413010105130101061301010713010108130101;
0x1091301010a1301010b1301010c1301010d1301010e1301010f13010110130101;
0x11113010112130101131301011413010115130101161301011713010100140101;
0x10114010102140101031401010414010105140101061401010714010108140101;
0x1091401010a1401010b1401010c1401010d1401010e1401010f14010110140101;
0x11114010112140101131401011414010115140101161401011714010100150101;
0x10115010102150101031501010415010105150101061501010715010108150101;
0x1091501010a1501010b1501010c1501010d1501010e1501010f15010110150101;
0x11115010112150101131501011415010115150101161501011715010100160101;
0x10116010102160101031601010416010105160101061601010716010108160101;
0x1091601010a1601010b1601010c1601010d1601010e1601010f16010110160101;
0x11116010112160101131601011416010115160101161601011716010100170101;
0x10117010102170101031701010417010105170101061701010717010108170101;
0x1091701010a1701010b1701010c1701010d1701010e1701010f17010110170101;
0x11117010112170101131701011417010115170101161701011717010100000201;
0x10100020102000201030002010400020105000201060002010700020108000201;
0x1090002010a0002010b0002010c0002010d0002010e0002010f00020110000201;
0x11100020112000201130002011400020115000201160002011700020100010201;
0x10101020102010201030102010401020105010201060102010701020108010201;
0x1090102010a0102010b0102010c0102010d0102010e0102010f01020110010201;
0x11101020112010201130102011401020115010201160102011701020100020201;
0x10102020102020201030202010402020105020201060202010702020108020201;
0x1090202010a0202010b0202010c0202010d0202010e0202010f02020110020201;
0x11102020112020201130202011402020115020201160202011702020100030201;
0x10103020102030201030302010403020105030201060302010703020108030201;
0x1090302010a0302010b0302010c0302010d0302010e0302010f03020110030201;
0x11103020112030201130302011403020115030201160302011703020100040201;
0x10104020102040201030402010404020105040201060402010704020108040201;
0x1090402010a0402010b0402010c0402010d0402010e0402010f04020110040201;
0x11104020112040201130402011404020115040201160402011704020100050201;
0x10105020102050201030502010405020105050201060502010705020108050201;
0x1090502010a0502010b0502010c0502010d0502010e0502010f05020110050201;
0x11105020112050201130502011405020115050201160502011705020100060201;
0x10106020102060201030602010406020105060201060602010706020108060201;
0x1090602010a0602010b0602010c0602010d0602010e0602010f06020110060201;
0x11106020112060201130602011406020115060201160602011706020100070201;
0x10107020102070201030702010407020105070201060702010707020108070201;
0x1090702010a0702010b0702010c0702010d0702010e0702010f07020110070201;
0x11107020112070201130702011407020115070201160702011707020100080201;
0x10108020102080201030802010408020105080201060802010708020108080201;
0x1090802010a0802010b0802010c0802010d0802010e0802010f08020110080201;
0x11108020112080201130802011408020115080201160802011708020100090201;
0x10109020102090201030902010409020105090201060902010709020108090201;
0x1090902260a0902260b0902260c0902260d0902260e0902260f09020110090201;
0x111090201120902011309020114090201150902011609020117090201000a0201;
0x1010a0201020a0201030a0201040a0201050a0201060a0201070a0201080a0201;
0x1090a02260a0a02260b0a02260c0a02260d0a02260e0a02260f0a0201100a0201;
0x1110a0201120a0201130a0201140a0201150a0201160a0201170a0201000b0201;
0x1010b0201020b0201030b0201040b0201050b0201060b0201070b0201080b0201;
0x1090b02260a0b02260b0b02260c0b02260d0b02260e0b02260f0b0201100b0201;
0x1110b0201120b0201130b0201140b0201150b0201160b0201170b0201000c0201;
0x1010c0201020c0201030c0201040c0201050c0201060c0201070c0201080c0201;
0x1090c02260a0c02260b0c02260c0c02260d0c02260e0c02260f0c0201100c0201;
0x1110c0201120c0201130c0201140c0201150c0201160c0201170c0201000d0201;
0x1010d0201020d0201030d0201040d0201050d0201060d0201070d0201080d0201;
0x1090d02260a0d02260b0d02260c0d02260d0d02260e0d02260f0d0201100d0201;
0x1110d0201120d0201130d0201140d0201150d0201160d0201170d0201000e0201;
0x1010e0201020e0201030e0201040e0201050e0201060e0201070e0201080e0201;
0x1090e02260a0e02260b0e02260c0e02260d0e02260e0e02260f0e0201100e0201;
0x1110e0201120e0201130e0201140e0201150e0201160e0201170e0201000f0201;
0x1010f0201020f0201030f0201040f0201050f0201060f0201070f0201080f0201;
0x1090f02010a0f02010b0f02010c0f02010d0f02010e0f02010f0f0201100f0201;
0x1110f0201120f0201130f0201140f0201150f0201160f0201170f020100100201;
0x10110020102100201031002010410020105100201061002010710020108100201;
0x1091002010a1002010b1002010c1002010d1002010e1002010f10020110100201;
0x11110020112100201131002011410020115100201161002011710020100110201;
0x10111020102110201031102010411020105110201061102010711020108110201;
0x1091102010a1102010b1102010c1102010d1102010e1102010f11020110110201;
0x11111020112110201131102011411020115110201161102011711020100120201;
0x10112020102120201031202010412020105120201061202010712020108120201;
0x1091202010a1202010b1202010c1202010d1202010e1202010f12020110120201;
0x11112020112120201131202011412020115120201161202011712020100130201;
0x10113020102130201031302010413020105130201061302010713020108130201;
0x1091302010a1302010b1302010c1302010d1302010e1302010f13020110130201;
0x11113020112130201131302011413020115130201161302011713020100140201;
0x10114020102140201031402010414020105140201061402010714020108140201;
0x1091402010a1402010b1402010c1402010d1402010e1402010f14020110140201;
0x11114020112140201131402011414020115140201161402011714020100150201;
0x10115020102150201031502010415020105150201061502010715020108150201;
0x1091502010a1502010b1502010c1502010d1502010e1502010f15020110150201;
0x11115020112150201131502011415020115150201161502011715020100160201;
0x10116020102160201031602010416020105160201061602010716020108160201;
0x1091602010a1602010b1602010c1602010d1602010e1602010f16020110160201;
0x11116020112160201131602011416020115160201161602011716020100170201;
0x10117020102170201031702010417020105170201061702010717020108170201;
0x1091702010a1702010b1702010c1702010d1702010e1702010f17020110170201;
0x11117020112170201131702011417020115170201161702011717020100000301;
0x10100030102000301030003010400030105000301060003010700030108000301;
0x1090003010a0003010b0003010c0003010d0003010e0003010f00030110000301;
0x11100030112000301130003011400030115000301160003011700030100010301;
0x10101030102010301030103010401030105010301060103010701030108010301;
0x1090103010a0103010b0103010c0103010d0103010e0103010f01030110010301;
0x11101030112010301130103011401030115010301160103011701030100020301;
0x10102030102020301030203010402030105020301060203010702030108020301;
0x1090203010a0203010b0203010c0203010d0203010e0203010f02030110020301;
0x11102030112020301130203011402030115020301160203011702030100030301;
0x10103030102030301030303010403030105030301060303010703030108030301;
0x1090303010a0303010b0303010c0303010d0303010e0303010f03030110030301;
0x11103030112030301130303011403030115030301160303011703030100040301;
0x10104030102040301030403010404030105040301060403010704030108040301;
0x1090403010a0403010b0403010c0403010d0403010e0403010f04030110040301;
0x11104030112040301130403011404030115040301160403011704030100050301;
0x10105030102050301030503010405030105050301060503010705030108050301;
0x1090503010a0503010b0503010c0503010d0503010e0503010f05030110050301;
0x11105030112050301130503011405030115050301160503011705030100060301;
0x10106030102060301030603010406030105060301060603010706030108060301;
0x1090603010a0603010b0603010c0603010d0603010e0603010f06030110060301;
0x11106030112060301130603011406030115060301160603011706030100070301;
0x10107030102070301030703010407030105070301060703010707030108070301;
0x1090703010a0703010b0703010c0703010d0703010e0703010f07030110070301;
0x11107030112070301130703011407030115070301160703011707030100080301;
0x10108030102080301030803010408030105080301060803010708030108080301;
0x1090803010a0803010b0803010c0803010d0803010e0803010f08030110080301;
0x11108030112080301130803011408030115080301160803011708030100090301;
0x10109030102090301030903010409030105090301060903010709030108090301;
0x1090903260a0903260b0903260c0903260d0903260e0903260f09030110090301;
0x111090301120903011309030114090301150903011609030117090301000a0301;
0x1010a0301020a0301030a0301040a0301050a0301060a0301070a0301080a0301;
0x1090a03260a0a03260b0a03260c0a03260d0a03260e0a03260f0a0301100a0301;
0x1110a0301120a0301130a0301140a0301150a0301160a0301170a0301000b0301;
0x1010b0301020b0301030b0301040b0301050b0301060b0301070b0301080b0301;
0x1090b03260a0b03260b0b03260c0b03260d0b03260e0b03260f0b0301100b0301;
0x1110b0301120b0301130b0301140b0301150b0301160b0301170b0301000c0301;
0x1010c0301020c0301030c0301040c0301050c0301060c0301070c0301080c0301;
0x1090c03260a0c03260b0c03260c0c03260d0c03260e0c03260f0c0301100c0301;
0x1110c0301120c0301130c0301140c0301150c0301160c0301170c0301000d0301;
0x1010d0301020d0301030d0301040d0301050d0301060d0301070d0301080d0301;
0x1090d03260a0d03260b0d03260c0d03260d0d03260e0d03260f0d0301100d0301;
0x1110d0301120d0301130d0301140d0301150d0301160d0301170d0301000e0301;
0x1010e0301020e0301030e0301040e0301050e0301060e0301070e0301080e0301;
0x1090e03260a0e03260b0e03260c0e03260d0e03260e0e03260f0e0301100e0301;
0x1110e0301120e0301130e0301140e0301150e0301160e0301170e0301000f0301;
0x1010f0301020f0301030f0301040f0301050f0301060f0301070f0301080f0301;
0x1090f03010a0f03010b0f03010c0f03010d0f03010e0f03010f0f0301100f0301;
0x1110f0301120f0301130f0301140f0301150f0301160f0301170f030100100301;
0x10110030102100301031003010410030105100301061003010710030108100301;
0x1091003010a1003010b1003010c1003010d1003010e1003010f10030110100301;
0x11110030112100301131003011410030115100301161003011710030100110301;
0x10111030102110301031103010411030105110301061103010711030108110301;
0x1091103010a1103010b1103010c1103010d1103010e1103010f11030110110301;
0x11111030112110301131103011411030115110301161103011711030100120301;
0x10112030102120301031203010412030105120301061203010712030108120301;
0x1091203010a1203010b1203010c1203010d1203010e1203010f12030110120301;
0x11112030112120301131203011412030115120301161203011712030100130301;
0x10113030102130301031303010413030105130301061303010713030108130301;
0x1091303010a1303010b1303010c1303010d1303010e1303010f13030110130301;
0x11113030112130301131303011413030115130301161303011713030100140301;
0x10114030102140301031403010414030105140301061403010714030108140301;
0x1091403010a1403010b1403010c1403010d1403010e1403010f14030110140301;
0x11114030112140301131403011414030115140301161403011714030100150301;
0x10115030102150301031503010415030105150301061503010715030108150301;
0x1091503010a1503010b1503010c1503010d1503010e1503010f15030110150301;
0x11115030112150301131503011415030115150301161503011715030100160301;
0x10116030102160301031603010416030105160301061603010716030108160301;
0x1091603010a1603010b1603010c1603010d1603010e1603010f16030110160301;
0x11116030112160301131603011416030115160301161603011716030100170301;
0x10117030102170301031703010417030105170301061703010717030108170301;
0x1091703010a1703010b1703010c1703010d1703010e1703010f17030110170301;
0x11117030112170301131703011417030115170301161703011717030100000401;
0x10100040102000401030004010400040105000401060004010700040108000401;
0x1090004010a0004010b0004010c0004010d0004010e0004010f00040110000401;
0x11100040112000401130004011400040115000401160004011700040100010401;
0x10101040102010401030104010401040105010401060104010701040108010401;
0x1090104010a0104010b0104010c0104010d0104010e0104010f01040110010401;
0x11101040112010401130104011401040115010401160104011701040100020401;
0x10102040102020401030204010402040105020401060204010702040108020401;
0x1090204010a0204010b0204010c0204010d0204010e0204010f02040110020401;
0x11102040112020401130204011402040115020401160204011702040100030401;
0x10103040102030401030304010403040105030401060304010703040108030401;
0x1090304010a0304010b0304010c0304010d0304010e0304010f03040110030401;
0x11103040112030401130304011403040115030401160304011703040100040401;
0x10104040102040401030404010404040105040401060404010704040108040401;
0x1090404010a0404010b0404010c0404010d0404010e0404010f04040110040401;
0x11104040112040401130404011404040115040401160404011704040100050401;
0x10105040102050401030504010405040105050401060504010705040108050401;
0x1090504010a0504010b0504010c0504010d0504010e0504010f05040110050401;
0x11105040112050401130504011405040115050401160504011705040100060401;
0x10106040102060401030604010406040105060401060604010706040108060401;
0x1090604010a0604010b0604010c0604010d0604010e0604010f06040110060401;
0x11106040112060401130604011406040115060401160604011706040100070401;
0x10107040102070401030704010407040105070401060704010707040108070401;
0x1090704010a0704010b0704010c0704010d0704010e0704010f07040110070401;
0x11107040112070401130704011407040115070401160704011707040100080401;
0x10108040102080401030804010408040105080401060804010708040108080401;
0x1090804010a0804010b0804010c0804010d0804010e0804010f08040110080401;
0x11108040112080401130804011408040115080401160804011708040100090401;
0x10109040102090401030904010409040105090401060904010709040108090401;
0x1090904260a0904260b0904260c0904260d0904260e0904260f09040110090401;
0x111090401120904011309040114090401150904011609040117090401000a0401;
0x1010a0401020a0401030a0401040a0401050a0401060a0401070a0401080a0401;
0x1090a04260a0a04260b0a04260c0a04260d0a04260e0a04260f0a0401100a0401;
0x1110a0401120a0401130a0401140a0401150a0401160a0401170a0401000b0401;
0x1010b0401020b0401030b0401040b0401050b0401060b0401070b0401080b0401;
0x1090b04260a0b04260b0b04260c0b04260d0b04260e0b04260f0b0401100b0401;
0x1110b0401120b0401130b0401140b0401150b0401160b0401170b0401000c0401;
0x1010c0401020c0401030c0401040c0401050c0401060c0401070c0401080c0401;
0x1090c04260a0c04260b0c04260c0c04260d0c04260e0c04260f0c0401100c0401;
0x1110c0401120c0401130c0401140c0401150c0401160c0401170c0401000d0401;
0x1010d0401020d0401030d0401040d0401050d0401060d0401070d0401080d0401;
0x1090d04260a0d04260b0d04260c0d04260d0d04260e0d04260f0d0401100d0401;
0x1110d0401120d0401130d0401140d0401150d0401160d0401170d0401000e0401;
0x1010e0401020e0401030e0401040e0401050e0401060e0401070e0401080e0401;
0x1090e04260a0e04260b0e04260c0e04260d0e04260e0e04260f0e0401100e0401;
0x1110e0401120e0401130e0401140e0401150e0401160e0401170e0401000f0401;
0x1010f0401020f0401030f0401040f0401050f0401060f0401070f0401080f0401;
0x1090f04010a0f04010b0f04010c0f04010d0f04010e0f04010f0f0401100f0401;
0x1110f0401120f0401130f0401140f0401150f0401160f0401170f040100100401;
0x10110040102100401031004010410040105100401061004010710040108100401;
0x1091004010a1004010b1004010c1004010d1004010e1004010f10040110100401;
0x11110040112100401131004011410040115100401161004011710040100110401;
0x10111040102110401031104010411040105110401061104010711040108110401;
0x1091104010a1104010b1104010c1104010d1104010e1104010f11040110110401;
0x11111040112110401131104011411040115110401161104011711040100120401;
0x10112040102120401031204010412040105120401061204010712040108120401;
0x1091204010a1204010b1204010c1204010d1204010e1204010f12040110120401;
0x11112040112120401131204011412040115120401161204011712040100130401;
0x10113040102130401031304010413040105130401061304010713040108130401;
0x1091304010a1304010b1304010c1304010d1304010e1304010f13040110130401;
0x11113040112130401131304011413040115130401161304011713040100140401;
0x10114040102140401031404010414040105140401061404010714040108140401;
0x1091404010a1404010b1404010c1404010d1404010e1404010f14040110140401;
0x11114040112140401131404011414040115140401161404011714040100150401;
0x10115040102150401031504010415040105150401061504010715040108150401;
0x1091504010a1504010b1504010c1504010d1504010e1504010f15040110150401;
0x11115040112150401131504011415040115150401161504011715040100160401;
0x10116040102160401031604010416040105160401061604010716040108160401;
0x1091604010a1604010b1604010c1604010d1604010e1604010f16040110160401;
0x11116040112160401131604011416040115160401161604011716040100170401;
0x10117040102170401031704010417040105170401061704010717040108170401;
0x1091704010a1704010b1704010c1704010d1704010e1704010f17040110170401;
0x11117040112170401131704011417040115170401161704011717040100000501;
0x10100050102000501030005010400050105000501060005010700050108000501;
0x1090005010a0005010b0005010c0005010d0005010e0005010f00050110000501;
0x11100050112000501130005011400050115000501160005011700050100010501;
0x10101050102010501030105010401050105010501060105010701050108010501;
0x1090105010a0105010b0105010c0105010d0105010e0105010f01050110010501;
0x11101050112010501130105011401050115010501160105011701050100020501;
0x10102050102020501030205010402050105020501060205010702050108020501;
0x1090205010a0205010b0205010c0205010d0205010e0205010f02050110020501;
0x11102050112020501130205011402050115020501160205011702050100030501;
0x10103050102030501030305010403050105030501060305010703050108030501;
0x1090305010a0305010b0305010c0305010d0305010e0305010f03050110030501;
0x11103050112030501130305011403050115030501160305011703050100040501;
0x10104050102040501030405010404050105040501060405010704050108040501;
0x1090405010a0405010b0405010c0405010d0405010e0405010f04050110040501;
0x11104050112040501130405011404050115040501160405011704050100050501;
0x10105050102050501030505010405050105050501060505010705050108050501;
0x1090505010a0505010b0505010c0505010d0505010e0505010f05050110050501;
0x11105050112050501130505011405050115050501160505011705050100060501;
0x10106050102060501030605010406050105060501060605010706050108060501;
0x1090605010a0605010b0605010c0605010d0605010e0605010f06050110060501;
0x11106050112060501130605011406050115060501160605011706050100070501;
0x10107050102070501030705010407050105070501060705010707050108070501;
0x1090705010a0705010b0705010c0705010d0705010e0705010f07050110070501;
0x11107050112070501130705011407050115070501160705011707050100080501;
0x10108050102080501030805010408050105080501060805010708050108080501;
0x1090805010a0805010b0805010c0805010d0805010e0805010f08050110080501;
0x11108050112080501130805011408050115080501160805011708050100090501;
0x10109050102090501030905010409050105090501060905010709050108090501;
0x1090905260a0905260b0905260c0905260d0905260e0905260f09050110090501;
0x111090501120905011309050114090501150905011609050117090501000a0501;
0x1010a0501020a0501030a0501040a0501050a0501060a0501070a0501080a0501;
0x1090a05260a0a05260b0a05260c0a05260d0a05260e0a05260f0a0501100a0501;
0x1110a0501120a0501130a0501140a0501150a0501160a0501170a0501000b0501;
0x1010b0501020b0501030b0501040b0501050b0501060b0501070b0501080b0501;
0x1090b05260a0b05260b0b05260c0b05260d0b05260e0b05260f0b0501100b0501;
0x1110b0501120b0501130b0501140b0501150b0501160b0501170b0501000c0501;
0x1010c0501020c0501030c0501040c0501050c0501060c0501070c0501080c0501;
0x1090c05260a0c05260b0c05260c0c05260d0c05260e0c05260f0c0501100c0501;
0x1110c0501120c0501130c0501140c0501150c0501160c0501170c0501000d0501;
0x1010d0501020d0501030d0501040d0501050d0501060d0501070d0501080d0501;
0x1090d05260a0d05260b0d05260c0d05260d0d05260e0d05260f0d0501100d0501;
0x1110d0501120d0501130d0501140d0501150d0501160d0501170d0501000e0501;
0x1010e0501020e0501030e0501040e0501050e0501060e0501070e0501080e0501;
0x1090e05260a0e05260b0e05260c0e05260d0e05260e0e05260f0e0501100e0501;
0x1110e0501120e0501130e0501140e0501150e0501160e0501170e0501000f0501;
0x1010f0501020f0501030f0501040f0501050f0501060f0501070f0501080f0501;
0x1090f05010a0f05010b0f05010c0f05010d0f05010e0f05010f0f0501100f0501;
0x1110f0501120f0501130f0501140f0501150f0501160f0501170f050100100501;
0x10110050102100501031005010410050105100501061005010710050108100501;
0x1091005010a1005010b1005010c1005010d1005010e1005010f10050110100501;
0x11110050112100501131005011410050115100501161005011710050100110501;
0x10111050102110501031105010411050105110501061105010711050108110501;
0x1091105010a1105010b1105010c1105010d1105010e1105010f11050110110501;
0x11111050112110501131105011411050115110501161105011711050100120501;
0x10112050102120501031205010412050105120501061205010712050108120501;
0x1091205010a1205010b1205010c1205010d1205010e1205010f12050110120501;
0x11112050112120501131205011412050115120501161205011712050100130501;
0x10113050102130501031305010413050105130501061305010713050108130501;
0x1091305010a1305010b1305010c1305010d1305010e1305010f13050110130501;
0x11113050112130501131305011413050115130501161305011713050100140501;
0x10114050102140501031405010414050105140501061405010714050108140501;
0x1091405010a1405010b1405010c1405010d1405010e1405010f14050110140501;
0x11114050112140501131405011414050115140501161405011714050100150501;
0x10115050102150501031505010415050105150501061505010715050108150501;
0x1091505010a1505010b1505010c1505010d1505010e1505010f15050110150501;
0x11115050112150501131505011415050115150501161505011715050100160501;
0x10116050102160501031605010416050105160501061605010716050108160501;
0x1091605010a1605010b1605010c1605010d1605010e1605010f16050110160501;
0x11116050112160501131605011416050115160501161605011716050100170501;
0x10117050102170501031705010417050105170501061705010717050108170501;
0x1091705010a1705010b1705010c1705010d1705010e1705010f17050110170501;
0x11117050112170501131705011417050115170501161705011717050100000601;
0x10100060102000601030006010400060105000601060006010700060108000601;
0x1090006010a0006010b0006010c0006010d0006010e0006010f00060110000601;
0x11100060112000601130006011400060115000601160006011700060100010601;
0x10101060102010601030106010401060105010601060106010701060108010601;
0x1090106010a0106010b0106010c0106010d0106010e0106010f01060110010601;
0x11101060112010601130106011401060115010601160106011701060100020601;
0x10102060102020601030206010402060105020601060206010702060108020601;
0x1090206010a0206010b0206010c0206010d0206010e0206010f02060110020601;
0x11102060112020601130206011402060115020601160206011702060100030601;
0x10103060102030601030306010403060105030601060306010703060108030601;
0x1090306010a0306010b0306010c0306010d0306010e0306010f03060110030601;
0x11103060112030601130306011403060115030601160306011703060100040601;
0x10104060102040601030406010404060105040601060406010704060108040601;
0x1090406010a0406010b0406010c0406010d0406010e0406010f04060110040601;
0x11104060112040601130406011404060115040601160406011704060100050601;
0x10105060102050601030506010405060105050601060506010705060108050601;
0x1090506010a0506010b0506010c0506010d0506010e0506010f05060110050601;
0x11105060112050601130506011405060115050601160506011705060100060601;
0x10106060102060601030606010406060105060601060606010706060108060601;
0x1090606010a0606010b0606010c0606010d0606010e0606010f06060110060601;
0x11106060112060601130606011406060115060601160606011706060100070601;
0x10107060102070601030706010407060105070601060706010707060108070601;
0x1090706010a0706010b0706010c0706010d0706010e0706010f07060110070601;
0x11107060112070601130706011407060115070601160706011707060100080601;
0x10108060102080601030806010408060105080601060806010708060108080601;
0x1090806010a0806010b0806010c0806010d0806010e0806010f08060110080601;
0x11108060112080601130806011408060115080601160806011708060100090601;
0x10109060102090601030906010409060105090601060906010709060108090601;
0x1090906260a0906260b0906260c0906260d0906260e0906260f09060110090601;
0x111090601120906011309060114090601150906011609060117090601000a0601;
0x1010a0601020a0601030a0601040a0601050a0601060a0601070a0601080a0601;
0x1090a06260a0a06260b0a06260c0a06260d0a06260e0a06260f0a0601100a0601;
0x1110a0601120a0601130a0601140a0601150a0601160a0601170a0601000b0601;
0x1010b0601020b0601030b0601040b0601050b0601060b0601070b0601080b0601;
0x1090b06260a0b06260b0b06260c0b06260d0b06260e0b06260f0b0601100b0601;
0x1110b0601120b0601130b0601140b0601150b0601160b0601170b0601000c0601;
0x1010c0601020c0601030c0601040c0601050c0601060c0601070c0601080c0601;
0x1090c06260a0c06260b0c06260c0c06260d0c06260e0c06260f0c0601100c0601;
0x1110c0601120c0601130c0601140c0601150c0601160c0601170c0601000d0601;
0x1010d0601020d0601030d0601040d0601050d0601060d0601070d0601080d0601;
0x1090d06260a0d06260b0d06260c0d06260d0d06260e0d06260f0d0601100d0601;
0x1110d0601120d0601130d0601140d0601150d0601160d0601170d0601000e0601;
0x1010e0601020e0601030e0601040e0601050e0601060e0601070e0601080e0601;
0x1090e06260a0e06260b0e06260c0e06260d0e06260e0e06260f0e0601100e0601;
0x1110e0601120e0601130e0601140e0601150e0601160e0601170e0601000f0601;
0x1010f0601020f0601030f0601040f0601050f0601060f0601070f0601080f0601;
0x1090f06010a0f06010b0f06010c0f06010d0f06010e0f06010f0f0601100f0601;
0x1110f0601120f0601130f0601140f0601150f0601160f0601170f060100100601;
0x10110060102100601031006010410060105100601061006010710060108100601;
0x1091006010a1006010b1006010c1006010d1006010e1006010f10060110100601;
0x11110060112100601131006011410060115100601161006011710060100110601;
0x10111060102110601031106010411060105110601061106010711060108110601;
0x1091106010a1106010b1106010c1106010d1106010e1106010f11060110110601;
0x11111060112110601131106011411060115110601161106011711060100120601;
0x10112060102120601031206010412060105120601061206010712060108120601;
0x1091206010a1206010b1206010c1206010d1206010e1206010f12060110120601;
0x11112060112120601131206011412060115120601161206011712060100130601;
0x10113060102130601031306010413060105130601061306010713060108130601;
0x1091306010a1306010b1306010c1306010d1306010e1306010f13060110130601;
0x11113060112130601131306011413060115130601161306011713060100140601;
0x10114060102140601031406010414060105140601061406010714060108140601;
0x1091406010a1406010b1406010c1406010d1406010e1406010f14060110140601;
0x11114060112140601131406011414060115140601161406011714060100150601;
0x10115060102150601031506010415060105150601061506010715060108150601;
0x1091506010a1506010b1506010c1506010d1506010e1506010f15060110150601;
0x11115060112150601131506011415060115150601161506011715060100160601;
0x10116060102160601031606010416060105160601061606010716060108160601;
0x1091606010a1606010b1606010c1606010d1606010e1606010f16060110160601;
0x11116060112160601131606011416060115160601161606011716060100170601;
0x10117060102170601031706010417060105170601061706010717060108170601;
0x1091706010a1706010b1706010c1706010d1706010e1706010f17060110170601;
0x11117060112170601131706011417060115170601161706011717060100000701;
0x10100070102000701030007010400070105000701060007010700070108000701;
0x1090007010a0007010b0007010c0007010d0007010e0007010f00070110000701;
0x11100070112000701130007011400070115000701160007011700070100010701;
0x10101070102010701030107010401070105010701060107010701070108010701;
0x1090107010a0107010b0107010c0107010d0107010e0107010f01070110010701;
0x11101070112010701130107011401070115010701160107011701070100020701;
0x10102070102020701030207010402070105020701060207010702070108020701;
0x1090207010a0207010b0207010c0207010d0207010e0207010f02070110020701;
0x11102070112020701130207011402070115020701160207011702070100030701;
0x10103070102030701030307010403070105030701060307010703070108030701;
0x1090307010a0307010b0307010c0307010d0307010e0307010f03070110030701;
0x11103070112030701130307011403070115030701160307011703070100040701;
0x10104070102040701030407010404070105040701060407010704070108040701;
0x1090407010a0407010b0407010c0407010d0407010e0407010f04070110040701;
0x11104070112040701130407011404070115040701160407011704070100050701;
0x10105070102050701030507010405070105050701060507010705070108050701;
0x1090507010a0507010b0507010c0507010d0507010e0507010f05070110050701;
0x11105070112050701130507011405070115050701160507011705070100060701;
0x10106070102060701030607010406070105060701060607010706070108060701;
0x1090607010a0607010b0607010c0607010d0607010e0607010f06070110060701;
0x11106070112060701130607011406070115060701160607011706070100070701;
0x10107070102070701030707010407070105070701060707010707070108070701;
0x1090707010a0707010b0707010c0707010d0707010e0707010f07070110070701;
0x11107070112070701130707011407070115070701160707011707070100080701;
0x10108070102080701030807010408070105080701060807010708070108080701;
0x1090807010a0807010b0807010c0807010d0807010e0807010f08070110080701;
0x11108070112080701130807011408070115080701160807011708070100090701;
0x10109070102090701030907010409070105090701060907010709070108090701;
0x1090907260a0907260b0907260c0907260d0907260e0907260f09070110090701;
0x111090701120907011309070114090701150907011609070117090701000a0701;
0x1010a0701020a0701030a0701040a0701050a0701060a0701070a0701080a0701;
0x1090a07260a0a07260b0a07260c0a07260d0a07260e0a07260f0a0701100a0701;
0x1110a0701120a0701130a0701140a0701150a0701160a0701170a0701000b0701;
0x1010b0701020b0701030b0701040b0701050b0701060b0701070b0701080b0701;
0x1090b07260a0b07260b0b07260c0b07260d0b07260e0b07260f0b0701100b0701;
0x1110b0701120b0701130b0701140b0701150b0701160b0701170b0701000c0701;
0x1010c0701020c0701030c0701040c0701050c0701060c0701070c0701080c0701;
0x1090c07260a0c07260b0c07260c0c07260d0c07260e0c07260f0c0701100c0701;
0x1110c0701120c0701130c0701140c0701150c0701160c0701170c0701000d0701;
0x1010d0701020d0701030d0701040d0701050d0701060d0701070d0701080d0701;
0x1090d07260a0d07260b0d07260c0d07260d0d07260e0d07260f0d0701100d0701;
0x1110d0701120d0701130d0701140d0701150d0701160d0701170d0701000e0701;
0x1010e0701020e0701030e0701040e0701050e0701060e0701070e0701080e0701;
0x1090e07260a0e07260b0e07260c0e07260d0e07260e0e07260f0e0701100e0701;
0x1110e0701120e0701130e0701140e0701150e0701160e0701170e0701000f0701;
0x1010f0701020f0701030f0701040f0701050f0701060f0701070f0701080f0701;
0x1090f07010a0f07010b0f07010c0f07010d0f07010e0f07010f0f0701100f0701;
0x1110f0701120f0701130f0701140f0701150f0701160f0701170f070100100701;
0x10110070102100701031007010410070105100701061007010710070108100701;
0x1091007010a1007010b1007010c1007010d1007010e1007010f10070110100701;
0x11110070112100701131007011410070115100701161007011710070100110701;
0x10111070102110701031107010411070105110701061107010711070108110701;
0x1091107010a1107010b1107010c1107010d1107010e1107010f11070110110701;
0x11111070112110701131107011411070115110701161107011711070100120701;
0x10112070102120701031207010412070105120701061207010712070108120701;
0x1091207010a1207010b1207010c1207010d1207010e1207010f12070110120701;
0x11112070112120701131207011412070115120701161207011712070100130701;
0x10113070102130701031307010413070105130701061307010713070108130701;
0x1091307010a1307010b1307010c1307010d1307010e1307010f13070110130701;
0x11113070112130701131307011413070115130701161307011713070100140701;
0x10114070102140701031407010414070105140701061407010714070108140701;
0x1091407010a1407010b1407010c1407010d1407010e1407010f14070110140701;
0x11114070112140701131407011414070115140701161407011714070100150701;
0x10115070102150701031507010415070105150701061507010715070108150701;
0x1091507010a1507010b1507010c1507010d1507010e1507010f15070110150701;
0x11115070112150701131507011415070115150701161507011715070100160701;
0x10116070102160701031607010416070105160701061607010716070108160701;
0x1091607010a1607010b1607010c1607010d1607010e1607010f16070110160701;
0x11116070112160701131607011416070115160701161607011716070100170701;
0x10117070102170701031707010417070105170701061707010717070108170701;
0x1091707010a1707010b1707010c1707010d1707010e1707010f17070110170701;
0x11117070112170701131707011417070115170701161707011717070100000801;
0x10100080102000801030008010400080105000801060008010700080108000801;
0x1090008010a0008010b0008010c0008010d0008010e0008010f00080110000801;
0x11100080112000801130008011400080115000801160008011700080100010801;
0x10101080102010801030108010401080105010801060108010701080108010801;
0x1090108010a0108010b0108010c0108010d0108010e0108010f01080110010801;
0x11101080112010801130108011401080115010801160108011701080100020801;
0x10102080102020801030208010402080105020801060208010702080108020801;
0x1090208010a0208010b0208010c0208010d0208010e0208010f02080110020801;
0x11102080112020801130208011402080115020801160208011702080100030801;
0x10103080102030801030308010403080105030801060308010703080108030801;
0x1090308010a0308010b0308010c0308010d0308010e0308010f03080110030801;
0x11103080112030801130308011403080115030801160308011703080100040801;
0x10104080102040801030408010404080105040801060408010704080108040801;
0x1090408010a0408010b0408010c0408010d0408010e0408010f04080110040801;
0x11104080112040801130408011404080115040801160408011704080100050801;
0x10105080102050801030508010405080105050801060508010705080108050801;
0x1090508010a0508010b0508010c0508010d0508010e0508010f05080110050801;
0x11105080112050801130508011405080115050801160508011705080100060801;
0x10106080102060801030608010406080105060801060608010706080108060801;
0x1090608010a0608010b0608010c0608010d0608010e0608010f06080110060801;
0x11106080112060801130608011406080115060801160608011706080100070801;
0x10107080102070801030708010407080105070801060708010707080108070801;
0x1090708010a0708010b0708010c0708010d0708010e0708010f07080110070801;
0x11107080112070801130708011407080115070801160708011707080100080801;
0x10108080102080801030808010408080105080801060808010708080108080801;
0x1090808010a0808010b0808010c0808010d0808010e0808010f08080110080801;
0x11108080112080801130808011408080115080801160808011708080100090801;
0x10109080102090801030908010409080105090801060908010709080108090801;
0x1090908260a0908260b0908260c0908260d0908260e0908260f09080110090801;
0x111090801120908011309080114090801150908011609080117090801000a0801;
0x1010a0801020a0801030a0801040a0801050a0801060a0801070a0801080a0801;
0x1090a08260a0a08260b0a08260c0a08260d0a08260e0a08260f0a0801100a0801;
0x1110a0801120a0801130a0801140a0801150a0801160a0801170a0801000b0801;
0x1010b0801020b0801030b0801040b0801050b0801060b0801070b0801080b0801;
0x1090b08260a0b08260b0b08260c0b08260d0b08260e0b08260f0b0801100b0801;
0x1110b0801120b0801130b0801140b0801150b0801160b0801170b0801000c0801;
0x1010c0801020c0801030c0801040c0801050c0801060c0801070c0801080c0801;
0x1090c08260a0c08260b0c08260c0c08260d0c08260e0c08260f0c0801100c0801;
0x1110c0801120c0801130c0801140c0801150c0801160c0801170c0801000d0801;
0x1010d0801020d0801030d0801040d0801050d0801060d0801070d0801080d0801;
0x1090d08260a0d08260b0d08260c0d08260d0d08260e0d08260f0d0801100d0801;
0x1110d0801120d0801130d0801140d0801150d0801160d0801170d0801000e0801;
0x1010e0801020e0801030e0801040e0801050e0801060e0801070e0801080e0801;
0x1090e08260a0e08260b0e08260c0e08260d0e08260e0e08260f0e0801100e0801;
0x1110e0801120e0801130e0801140e0801150e0801160e0801170e0801000f0801;
0x1010f0801020f0801030f0801040f0801050f0801060f0801070f0801080f0801;
0x1090f08010a0f08010b0f08010c0f08010d0f08010e0f08010f0f0801100f0801;
0x1110f0801120f0801130f0801140f0801150f0801160f0801170f080100100801;
0x10110080102100801031008010410080105100801061008010710080108100801;
0x1091008010a1008010b1008010c1008010d1008010e1008010f10080110100801;
0x11110080112100801131008011410080115100801161008011710080100110801;
0x10111080102110801031108010411080105110801061108010711080108110801;
0x1091108010a1108010b1108010c1108010d1108010e1108010f11080110110801;
0x11111080112110801131108011411080115110801161108011711080100120801;
0x10112080102120801031208010412080105120801061208010712080108120801;
0x1091208010a1208010b1208010c1208010d1208010e1208010f12080110120801;
0x11112080112120801131208011412080115120801161208011712080100130801;
0x10113080102130801031308010413080105130801061308010713080108130801;
0x1091308010a1308010b1308010c1308010d1308010e1308010f13080110130801;
0x11113080112130801131308011413080115130801161308011713080100140801;
0x10114080102140801031408010414080105140801061408010714080108140801;
0x1091408010a1408010b1408010c1408010d1408010e1408010f14080110140801;
0x11114080112140801131408011414080115140801161408011714080100150801;
0x10115080102150801031508010415080105150801061508010715080108150801;
0x1091508010a1508010b1508010c1508010d1508010e1508010f15080110150801;
0x11115080112150801131508011415080115150801161508011715080100160801;
0x10116080102160801031608010416080105160801061608010716080108160801;
0x1091608010a1608010b1608010c1608010d1608010e1608010f16080110160801;
0x11116080112160801131608011416080115160801161608011716080100170801;
0x10117080102170801031708010417080105170801061708010717080108170801;
0x1091708010a1708010b1708010c1708010d1708010e1708010f17080110170801;
0x11117080112170801131708011417080115170801161708011717080100000901;
0x10100090102000901030009010400090105000901060009010700090108000901;
0x10f00090110000901110009011200090113000901140009011500090116000901;
0x11700090100010901170109010002090117020901000309011703090100040901;
0x11704090100050901090509010a0509010b0509010c0509010d0509010e050901;
0x1170509010006090117060901000709010707092608070926090709010a070901;
0x10b0709010c0709010d0709010e0709010f070926100709261707090100080901;
0x10708092608080926090809010a0809010b0809010c0809010d0809010e080901;
0x10f0809261008092617080901050909010709090108090901090909260a090926;
0x10b0909260c0909260d0909260e0909260f0909011009090112090901050a0901;
0x1070a0901080a0901090a09260a0a09260b0a09260c0a09260d0a09260e0a0926;
0x10f0a0901100a0901120a0901050b0901070b0901080b0901090b09260a0b0926;
0x10b0b09260c0b09260d0b09260e0b09260f0b0901100b0901120b0901050c0901;
0x1070c0901080c0901090c09260a0c09260b0c09260c0c09260d0c09260e0c0926;
0x10f0c0901100c0901120c0901050d0901070d0901080d0901090d09260a0d0926;
0x10b0d09260c0d09260d0d09260e0d09260f0d0901100d0901120d0901050e0901;
0x1070e0901080e0901090e09260a0e09260b0e09260c0e09260d0e09260e0e0926;
0x10f0e0901100e0901120e0901000f0901070f0926080f0901090f09010a0f0901;
0x10b0f09010c0f09010d0f09010e0f09010f0f0926100f0926170f090100100901;
0x10710092608100926091009010a1009010b1009010c1009010d1009010e100901;
0x10f1009261010092617100901001109011711090100120901091209010a120901;
0x10b1209010c1209010d1209010e12090117120901001309011713090100140901;
0x11714090100150901171509010016090117160901001709010117090102170901;
0x10317090104170901051709010617090107170901081709010f17090110170901;
0x11117090112170901131709011417090115170901161709011717090100000a01;
0x101000a0102000a0103000a0104000a0105000a0106000a0107000a0108000a01;
0x10f000a0110000a0111000a0112000a0113000a0114000a0115000a0116000a01;
0x117000a0100010a0117010a0100020a0117020a0100030a0117030a0100040a01;
0x117040a0100050a0109050a010a050a260b050a260c050a260d050a260e050a01;
0x117050a0100060a0117060a0100070a0117070a0100080a0108080a2609080a26;
0x10a080a260b080a260c080a260d080a260e080a260f080a2617080a0105090a01;
0x108090a2609090a260a090a260b090a260c090a260d090a260e090a260f090a26;
0x112090a01050a0a26080a0a26090a0a260a0a0a260b0a0a260c0a0a260d0a0a26;
0x10e0a0a260f0a0a26120a0a26050b0a26080b0a26090b0a260a0b0a260b0b0a26;
0x10c0b0a260d0b0a260e0b0a260f0b0a26120b0a26050c0a26080c0a26090c0a26;
0x10a0c0a260b0c0a260c0c0a260d0c0a260e0c0a260f0c0a26120c0a26050d0a26;
0x1080d0a26090d0a260a0d0a260b0d0a260c0d0a260d0d0a260e0d0a260f0d0a26;
0x1120d0a26050e0a01080e0a26090e0a260a0e0a260b0e0a260c0e0a260d0e0a26;
0x10e0e0a260f0e0a26120e0a01000f0a01080f0a26090f0a260a0f0a260b0f0a26;
0x10c0f0a260d0f0a260e0f0a260f0f0a26170f0a0100100a0117100a0100110a01;
0x117110a0100120a0109120a010a120a260b120a260c120a260d120a260e120a01;
0x117120a0100130a0117130a0100140a0117140a0100150a0117150a0100160a01;
0x117160a0100170a0101170a0102170a0103170a0104170a0105170a0106170a01;
0x107170a0108170a010f170a0110170a0111170a0112170a0113170a0114170a01;
0x115170a0116170a0117170a0100000b0102000b0104000b0106000b0108000b01;
0x10f000b0111000b0113000b0115000b0117000b0100020b0117020b0100040b01;
0x117040b0109050b010a050b260b050b260c050b260d050b260e050b0100060b01;
0x117060b0100080b0117080b0105090b0109090b260a090b260b090b260c090b26;
0x10d090b260e090b2612090b01050a0b26090a0b260a0a0b260b0a0b260c0a0b26;
0x10d0a0b260e0a0b26120a0b26050b0b26090b0b260a0b0b260b0b0b260c0b0b26;
0x10d0b0b260e0b0b26120b0b26050c0b26090c0b260a0c0b260b0c0b260c0c0b26;
0x10d0c0b260e0c0b26120c0b26050d0b26090d0b260a0d0b260b0d0b260c0d0b26;
0x10d0d0b260e0d0b26120d0b26050e0b01090e0b260a0e0b260b0e0b260c0e0b26;
0x10d0e0b260e0e0b26120e0b01000f0b01170f0b0100110b0117110b0109120b01;
0x10a120b260b120b260c120b260d120b260e120b0100130b0117130b0100150b01;
0x117150b0100170b0102170b0104170b0106170b0108170b010f170b0111170b01;
0x113170b0115170b0117170b0109050c010a050c260b050c260c050c260d050c26;
0x10e050c0105090c0112090c01050a0c26120a0c26050b0c26120b0c26050c0c26;
0x1120c0c26050d0c26120d0c26050e0c01120e0c0109120c010a120c260b120c26;
0x10c120c260d120c260e120c0109050d010a050d260b050d260c050d260d050d26;
0x10e050d0105090d0112090d01050a0d26120a0d26050b0d26120b0d26050c0d26;
0x1120c0d26050d0d26120d0d26050e0d01120e0d0109120d010a120d260b120d26;
0x10c120d260d120d260e120d0109050e010a050e260b050e260c050e260d050e26;
0x10e050e0105090e0112090e01050a0e26120a0e26050b0e26120b0e26050c0e26;
0x1120c0e26050d0e26120d0e26050e0e01120e0e0109120e010a120e260b120e26;
0x10c120e260d120e260e120e0109050f010a050f260b050f260c050f260d050f26;
0x10e050f0105090f0112090f01050a0f26120a0f26050b0f26120b0f26050c0f26;
0x1120c0f26050d0f26120d0f26050e0f01120e0f0109120f010a120f260b120f26;
0x10c120f260d120f260e120f01090510010a0510010b0510010c0510010d051001;
0x10e0510010509100112091001050a1001120a1001050b1001120b1001050c1001;
0x1120c1001050d1001120d1001050e1001120e1001091210010a1210010b121001;
0x10c1210010d1210010e12100152474241000400000000000000000000847e87ff;
0x1847e87ff847e87ff847e87ff847e87ff847e87ff847e87ff847e87ff847e87ff;
0x1847e87ff847e87ff847e87ff847e87ff847e87ff847e87ff847e87ff847e87ff;
0x1847e87ff847e87ff847e87ff847e87ff847e87ff847e87ff847e87ff847e87ff;
0x1847e87ff847e87ff847e87ff847e87ff847e87ff847e87ff847e87ff847e87ff;
0x1847e87ff847e87ff847e87ff847e87ffff0000ffff0000ffff0000ffff0000ff;
0x1ff0000ffff0000ffff0000ffff0000ffff0000ffff0000ffff0000ffff0000ff;
0x1ff0000ffff0000ffff0000ffff0000ffff0000ffff0000ffff0000ffff0000ff;
0x1ff0000ffff0000ffff0000ffff0000ffff0000ffff0000ffff0000ffff0000ff;
0x1ff0000ffff0000ffff0000ffff0000ffff0000ffff0000ffff0000ffff0000ff;
0x1ff0000ffff0000ffff0000ffff0000ffff0000ffff0000ffff0000ffff0000ff;
0x1ff0000ffff0000ffff0000ffff0000ffff0000ffff0000ffff0000ffff0000ff;
0x1ff0000ffff0000ffff0000ffff0000ffff0000ffff0000ffff0000ffff0000ff;
0x1ff0000ffff0000ffff0000ffff0000ffff0000ffff0000ffff0000ffff0000ff;
0x1ff0000ffff0000ffff0000ffff0000ffff0000ffff0000ffff0000ffff0000ff;
0x1ff0000ffff0000ffff0000ffff0000ffff0000ffff0000ffff0000ffff0000ff;
0x1847e87ff847e87ff847e87ff847e87ff847e87ff847e87ff847e87ff847e87ff;
0x1847e87ff847e87ff847e87ff847e87ff847e87ff847e87ff847e87ff847e87ff;
0x1847e87ff847e87ff847e87ff847e87ff847e87ff847e87ff847e87ff847e87ff;
0x1847e87ff847e87ff847e87ff847e87ff847e87ff847e87ff847e87ff847e87ff;
0x1847e87ff847e87ff847e87ff847e87ff847e87ff847e87ff847e87ff847e87ff;
0x1847e87ff847e87ff847e87ff847e87ff847e87ff847e87ff847e87ff847e87ff;
0x1847e87ff847e87ff847e87ff847e87ff847e87ff847e87ff847e87ff847e87ff;
0x1847e87ff847e87ff847e87ff847e87ff847e87ff847e87ff847e87ff847e87ff;
0x1847e87ff847e87ff847e87ff847e87ff847e87ff847e87ff847e87ff847e87ff;
0x1847e87ff847e87ff847e87ff847e87ff847e87ff847e87ff847e87ff847e87ff;
0x1847e87ff847e87ff847e87ff847e87ff847e87ff000000000000000000000000;
0x10000000000000000000000000000000000000000000000000000000000000000;
0x10000000000000000000000000000000000000000000000000000000000000000;
0x10000000000000000000000000000000000000000000000000000000000000000;
0x10000000000000000000000000000000000000000000000000000000000000000;
0x10000000000000000000000000000000000000000000000000000000000000000;
0x1000000000000000000000000000000000000000000000000].
(** redeclipse/prefabs/castle/castle_gate.vox (7576 bytes) *)
Definition vox_castle_castle_gate : list Z := [
0x1564f5820960000004d41494e00000000841d000053495a450c00000000000000;
0x118000000180000000c00000058595a4954190000000000005406000008000001;
0x1090000010a0000010b0000010c0000010d0000010e0000010f00000108010001;
0x1090100010a0100010b0100010c0100010d0100010e0100010f01000108020001;
0x1090200010a0200010b0200010c0200010d0200010e0200010f02000108030001;
0x1090300010a0300010b0300010c0300010d0300010e0300010f03000108040001;
0x1090400010a0400010b0400010c0400010d0400010e0400010f04000108050001;
0x1090500010a0500010b0500010c0500010d0500010e0500010f05000108060001;
0x1090600010a0600010b0600010c0600010d0600010e0600010f06000108070001;
0x1090700010a0700010b0700010c0700010d0700010e0700010f07000100080001;
0x10108000102080001030800010408000105080001060800010708000108080001;
0x1090800010a0800010b0800010c0800010d0800010e0800010f08000110080001;
0x11108000112080001130800011408000115080001160800011708000100090001;
0x10109000102090001030900010409000105090001060900010709000108090001;
0x1090900010a0900010b0900010c0900010d0900010e0900010f09000110090001;
0x111090001120900011309000114090001150900011609000117090001000a0001;
0x1010a0001020a0001030a0001040a0001050a0001060a0001070a0001080a0001;
0x1090a00010a0a00010b0a00010c0a00010d0a00010e0a00010f0a0001100a0001;
0x1110a0001120a0001130a0001140a0001150a0001160a0001170a0001000b0001;
0x1010b0001020b0001030b0001040b0001050b0001060b0001070b0001080b0001;
0x1090b00010a0b00010b0b00010c0b00010d0b00010e0b00010f0b0001100b0001;
0x1110b0001120b0001130b0001140b0001150b0001160b0001170b0001000c0001;
0x1010c0001020c0001030c0001040c0001050c0001060c0001070c0001080c0001;
0x1090c00010a0c00010b0c00010c0c00010d0c00010e0c00010f0c0001100c0001;
0x1110c0001120c0001130c0001140c0001150c0001160c0001170c0001000d0001;
0x1010d0001020d0001030d0001040d0001050d0001060d0001070d0001080d0001;
0x1090d00010a0d00010b0d00010c0d00010d0d00010e0d00010f0d0001100d0001;
0x1110d0001120d0001130d0001140d0001150d0001160d0001170d0001000e0001;
0x1010e0001020e0001030e0001040e0001050e0001060e0001070e0001080e0001;
0x1090e00010a0e00010b0e00010c0e00010d0e00010e0e00010f0e0001100e0001;
0x1110e0001120e0001130e0001140e0001150e0001160e0001170e0001000f0001;
0x1010f0001020f0001030f0001040f0001050f0001060f0001070f0001080f0001;
0x1090f00010a0f00010b0f00010c0f00010d0f00010e0f00010f0f0001100f0001;
0x1110f0001120f0001130f0001140f0001150f0001160f0001170f000108100001;
0x1091000010a1000010b1000010c1000010d1000010e1000010f10000108110001;
0x1091100010a1100010b1100010c1100010d1100010e1100010f11000108120001;
0x1091200010a1200010b1200010c1200010d1200010e1200010f12000108130001;
0x1091300010a1300010b1300010c1300010d1300010e1300010f13000108140001;
0x1091400010a1400010b1400010c1400010d1400010e1400010f14000108150001;
0x1091500010a1500010b1500010c1500010d1500010e1500010f15000108160001;
0x1091600010a1600010b1600010c1600010d1600010e1600010f16000108170001;
0x1091700010a1700010b1700010c1700010d1700010e1700010f17000100080101;
0x10108010102080101030801010408010105080101060801010708010110080101;
0x11108010112080101130801011408010115080101160801011708010100090101;
0x10109010102090101030901010409010105090101060901010709010108090101;
0x1090901010a0901010b0901011009010111090101120901011309010114090101;
0x1150901011609010117090101000a0101010a0101020a0101030a0101040a0101;
0x1050a0101060a0101070a0101100a0101110a0101120a0101130a0101140a0101;
0x1150a0101160a0101170a0101000b0101010b0101020b0101030b0101040b0101;
0x1050b0101060b0101070b0101100b0101110b0101120b0101130b0101140b0101;
0x1150b0101160b0101170b0101000c0101010c0101020c0101030c0101040c0101;
0x1050c0101060c0101070c0101100c0101110c0101120c0101130c0101140c0101;
0x1150c0101160c0101170c0101000d0101010d0101020d0101030d0101040d0101;
0x1050d0101060d0101070d0101100d0101110d0101120d0101130d0101140d0101;
0x1150d0101160d0101170d0101000e0101010e0101020e0101030e0101040e0101;
0x1050e0101060e0101070e01010c0e01010d0e01010e0e01010f0e0101100e0101;
0x1110e0101120e0101130e0101140e0101150e0101160e0101170e0101000f0101;
0x1010f0101020f0101030f0101040f0101050f0101060f0101070f0101100f0101;
0x1110f0101120f0101130f0101140f0101150f0101160f0101170f010100080201;
0x10108020102080201030802010408020105080201060802010708020110080201;
0x11108020112080201130802011408020115080201160802011708020100090201;
0x10109020102090201030902010409020105090201060902010709020108090201;
0x1090902010a0902010b0902011009020111090201120902011309020114090201;
0x1150902011609020117090201000a0201010a0201020a0201030a0201040a0201;
0x1050a0201060a0201070a0201100a0201110a0201120a0201130a0201140a0201;
0x1150a0201160a0201170a0201000b0201010b0201020b0201030b0201040b0201;
0x1050b0201060b0201070b0201100b0201110b0201120b0201130b0201140b0201;
0x1150b0201160b0201170b0201000c0201010c0201020c0201030c0201040c0201;
0x1050c0201060c0201070c0201100c0201110c0201120c0201130c0201140c0201;
0x1150c0201160c0201170c0201000d0201010d0201020d0201030d0201040d0201;
0x1050d0201060d0201070d0201100d0201110d0201120d0201130d0201140d0201;
0x1150d0201160d0201170d0201000e0201010e0201020e0201030e0201040e0201;
0x1050e0201060e0201070e02010c0e02010d0e02010e0e02010f0e0201100e0201;
0x1110e0201120e0201130e0201140e0201150e0201160e0201170e0201000f0201;
0x1010f0201020f0201030f0201040f0201050f0201060f0201070f0201100f0201;
0x1110f0201120f0201130f0201140f0201150f0201160f0201170f020100080301;
0x10108030102080301030803010408030105080301060803010708030110080301;
0x11108030112080301130803011408030115080301160803011708030100090301;
0x10109030102090301030903010409030105090301060903010709030108090301;
0x1090903010a0903010b0903011009030111090301120903011309030114090301;
0x1150903011609030117090301000a0301010a0301020a0301030a0301040a0301;
0x1050a0301060a0301070a0301100a0301110a0301120a0301130a0301140a0301;
0x1150a0301160a0301170a0301000b0301010b0301020b0301030b0301040b0301;
0x1050b0301060b0301070b0301100b0301110b0301120b0301130b0301140b0301;
0x1150b0301160b0301170b0301000c0301010c0301020c0301030c0301040c0301;
0x1050c0301060c0301070c0301100c0301110c0301120c0301130c0301140c0301;
0x1150c0301160c0301170c0301000d0301010d0301020d0301030d0301040d0301;
0x1050d0301060d0301070d0301100d0301110d0301120d0301130d0301140d0301;
0x1150d0301160d0301170d0301000e0301010e0301020e0301030e0301040e0301;
0x1050e0301060e0301070e03010c0e03010d0e03010e0e03010f0e0301100e0301;
0x1110e0301120e0301130e0301140e0301150e0301160e0301170e0301000f0301;
0x1010f0301020f0301030f0301040f0301050f0301060f0301070f0301100f0301;
0x1110f0301120f0301130f030d140f030d150f0301160f0301170f030100080401;
0x10108040102080401030804010408040105080401060804010708040110080401;
0x11108040112080401130804011408040115080401160804011708040100090401;
0x10109040102090401030904010409040105090401060904010709040108090401;
0x1090904010a0904010b0904011009040111090401120904011309040114090401;
0x1150904011609040117090401000a0401010a0401020a0401030a0401040a0401;
0x1050a0401060a0401070a0401100a0401110a0401120a0401130a0401140a0401;
0x1150a0401160a0401170a0401000b0401010b0401020b0401030b0401040b0401;
0x1050b0401060b0401070b0401100b0401110b0401120b0401130b0401140b0401;
0x1150b0401160b0401170b0401000c0401010c0401020c0401030c0401040c0401;
0x1050c0401060c0401070c0401100c0401110c0401120c0401130c0401140c0401;
0x1150c0401160c0401170c0401000d0401010d0401020d0401030d0401040d0401;
0x1050d0401060d0401070d0401100d0401110d0401120d0401130d0401140d0401;
0x1150d0401160d0401170d0401000e0401010e0401020e0401030e0401040e0401;
0x1050e0401060e0401070e04010c0e04010d0e04010e0e04010f0e0401100e0401;
0x1110e0401120e0401130e0401140e0401150e0401160e0401170e0401000f0401;
0x1010f0401020f0401030f0401040f0401050f0401060f0401070f0401100f0401;
0x1110f0401120f040d130f0469140f0469150f040d160f0401170f040100080501;
0x10108050102080501030805010408050105080501060805010708050110080501;
0x11108050112080501130805011408050115080501160805011708050100090501;
0x10109050102090501030905010409050105090501060905010709050110090501;
0x111090501120905011309050114090501150905011609050117090501000a0501;
0x1010a0501020a0501030a0501040a0501050a0501060a0501070a0501100a0501;
0x1110a0501120a0501130a0501140a0501150a0501160a0501170a0501000b0501;
0x1010b0501020b0501030b0501040b0501050b0501060b0501070b0501100b0501;
0x1110b0501120b0501130b0501140b0501150b0501160b0501170b0501000c0501;
0x1010c0501020c0501030c0501040c0501050c0501060c0501070c0501100c0501;
0x1110c0501120c0501130c0501140c0501150c0501160c0501170c0501000d0501;
0x1010d0501020d0501030d0501040d0501050d0501060d0501070d0501100d0501;
0x1110d0501120d0501130d0501140d0501150d0501160d0501170d0501000e0501;
0x1010e0501020e0501030e0501040e0501050e0501060e0501070e0501100e0501;
0x1110e0501120e0501130e0501140e0501150e0501160e0501170e0501000f0501;
0x1010f0501020f0501030f0501040f0501050f0501060f0501070f0501100f0501;
0x1110f050d120f0569130f056e140f050e150f0569160f050d170f050100080601;
0x10108060102080601030806010408060105080601060806010708060110080601;
0x11108060112080601130806011408060115080601160806011708060100090601;
0x10109060102090601030906010409060105090601060906010709060110090601;
0x111090601120906011309060114090601150906011609060117090601000a0601;
0x1010a0601020a0601030a0601040a0601050a0601060a0601070a0601100a0601;
0x1110a0601120a0601130a0601140a0601150a0601160a0601170a0601000b0601;
0x1010b0601020b0601030b0601040b0601050b0601060b0601070b0601100b0601;
0x1110b0601120b0601130b0601140b0601150b0601160b0601170b0601000c0601;
0x1010c0601020c0601030c0601040c0601050c0601060c0601070c0601100c0601;
0x1110c0601120c0601130c0601140c0601150c0601160c0601170c0601000d0601;
0x1010d0601020d0601030d0601040d0601050d0601060d0601070d0601100d0601;
0x1110d0601120d0601130d0601140d0601150d0601160d0601170d0601000e0601;
0x1010e0601020e0601030e0601040e0601050e0601060e0601070e0601100e0601;
0x1110e0601120e0601130e0601140e0601150e0601160e0601170e0601000f0601;
0x1010f0601020f0601030f0601040f0601050f0601060f0601070f0601100f0601;
0x1110f060d120f0669130f060e140f066e150f0669160f060d170f060100080701;
0x10108070102080701030807010408070105080701060807010708070110080701;
0x11108070112080701130807011408070115080701160807011708070100090701;
0x10109070102090701030907010409070105090701060907010709070110090701;
0x111090701120907011309070114090701150907011609070117090701000a0701;
0x1010a0701020a0701030a0701040a0701050a0701060a0701070a0701100a0701;
0x1110a0701120a0701130a0701140a0701150a0701160a0701170a0701000b0701;
0x1010b0701020b0701030b0701040b0701050b0701060b0701070b0701100b0701;
0x1110b0701120b0701130b0701140b0701150b0701160b0701170b0701000c0701;
0x1010c0701020c0701030c0701040c0701050c0701060c0701070c0701100c0701;
0x1110c0701120c0701130c0701140c0701150c0701160c0701170c0701000d0701;
0x1010d0701020d0701030d0701040d0701050d0701060d0701070d0701100d0701;
0x1110d0701120d0701130d0701140d0701150d0701160d0701170d0701000e0701;
0x1010e0701020e0701030e0701040e0701050e0701060e0701070e0701100e0701;
0x1110e0701120e0701130e0701140e0701150e0701160e0701170e0701000f0701;
0x1010f0701020f0701030f0701040f0701050f0701060f0701070f0701100f0701;
0x1110f070d120f0769130f0769140f0769150f0769160f070d170f070108060801;
0x1090608010a0608010b0608010c0608010d0608010e0608010f06080108070801;
0x1090708010a0708010b0708010c0708010d0708010e0708010f07080100080801;
0x10108080102080801030808010408080105080801060808010708080108080801;
0x1090808010a0808010b0808010c0808010d0808010e0808010f08080110080801;
0x11108080112080801130808011408080115080801160808011708080100090801;
0x10109080102090801030908010409080105090801060908010709080108090801;
0x1090908010a0908010b0908010c0908010d0908010e0908010f09080110090801;
0x111090801120908011309080114090801150908011609080117090801000a0801;
0x1010a0801020a0801030a0801040a0801050a0801060a0801070a0801080a0801;
0x1090a08010a0a08010b0a08010c0a08010d0a08010e0a08010f0a0801100a0801;
0x1110a0801120a0801130a0801140a0801150a0801160a0801170a0801000b0801;
0x1010b0801020b0801030b0801040b0801050b0801060b0801070b0801080b0801;
0x1090b08010a0b08010b0b08010c0b08010d0b08010e0b08010f0b0801100b0801;
0x1110b0801120b0801130b0801140b0801150b0801160b0801170b0801000c0801;
0x1010c0801020c0801030c0801040c0801050c0801060c0801070c0801080c0801;
0x1090c08010a0c08010b0c08010c0c08010d0c08010e0c08010f0c0801100c0801;
0x1110c0801120c0801130c0801140c0801150c0801160c0801170c0801000d0801;
0x1010d0801020d0801030d0801040d0801050d0801060d0801070d0801080d0801;
0x1090d08010a0d08010b0d08010c0d08010d0d08010e0d08010f0d0801100d0801;
0x1110d0801120d0801130d0801140d0801150d0801160d0801170d0801000e0801;
0x1010e0801020e0801030e0801040e0801050e0801060e0801070e0801080e0801;
0x1090e08010a0e08010b0e08010c0e08010d0e08010e0e08010f0e0801100e0801;
0x1110e0801120e0801130e0801140e0801150e0801160e0801170e0801000f0801;
0x1010f0801020f0801030f0801040f0801050f0801060f0801070f0801080f0801;
0x1090f08010a0f08010b0f08010c0f08010d0f08010e0f08010f0f0801100f0801;
0x1110f080d120f080d130f080d140f080d150f080d160f080d170f080108100801;
0x1091008010a1008010b1008010c1008010d1008010e1008010f10080108110801;
0x1091108010a1108010b1108010c1108010d1108010e1108010f11080108050901;
0x1090509010a0509010b0509010c0509010d0509010e0509010f05090108060901;
0x10f060901080709010f0709010008090101080901020809010308090104080901;
0x1050809010608090107080901080809010f080901100809011108090112080901;
0x11308090114080901150809011608090117080901000f0901010f0901020f0901;
0x1030f0901040f0901050f0901060f0901070f0901080f09010f0f0901100f0901;
0x1110f0901120f0901130f0901140f0901150f0901160f0901170f090108100901;
0x10f100901081109010f11090108120901091209010a1209010b1209010c120901;
0x10d1209010e1209010f12090108050a0109050a010a050a010b050a010c050a01;
0x10d050a010e050a010f050a0108060a010f060a0108070a010f070a0100080a01;
0x101080a0102080a0103080a0104080a0105080a0106080a0107080a0108080a01;
0x10f080a0110080a0111080a0112080a0113080a0114080a0115080a0116080a01;
0x117080a01000f0a01010f0a01020f0a01030f0a01040f0a01050f0a01060f0a01;
0x1070f0a01080f0a010f0f0a01100f0a01110f0a01120f0a01130f0a01140f0a01;
0x1150f0a01160f0a01170f0a0108100a010f100a0108110a010f110a0108120a01;
0x109120a010a120a010b120a010c120a010d120a010e120a010f120a0109050b01;
0x10b050b010d050b010f050b0100080b0102080b0104080b0106080b0108080b01;
0x110080b0112080b0114080b0116080b01000f0b01020f0b01040f0b01060f0b01;
0x1080f0b01100f0b01120f0b01140f0b01160f0b010f100b0108110b0109120b01;
0x10b120b010d120b010f120b0152474241000400000000000000000000847e87ff;
0x1847e87ff847e87ff847e87ff847e87ff847e87ff847e87ff847e87ff847e87ff;
0x1847e87ff847e87ff847e87ff3f3f74ff6abe30ff847e87ff847e87ff847e87ff;
0x1847e87ff847e87ff847e87ff847e87ff847e87ff847e87ff847e87ff847e87ff;
0x1847e87ff847e87ff847e87ff847e87ff3f3f74ff3f3f74ff6abe30ff847e87ff;
0x1847e87ff847e87ff847e87ff847e87ff847e87ff847e87ff847e87ff847e87ff;
0x1847e87ff847e87ff847e87ff847e87ff847e87ff847e87ff847e87ff847e87ff;
0x13f3f74ff3f3f74ff3f3f74ff3f3f74ff847e87ff847e87ff847e87ff847e87ff;
0x1847e87ff847e87ff847e87ff847e87ff847e87ff847e87ff847e87ff847e87ff;
0x1847e87ff847e87ff847e87ff847e87ff847e87ff847e87ff847e87ff847e87ff;
0x1847e87ff847e87ff847e87ff847e87ff847e87ff847e87ff847e87ff847e87ff;
0x1847e87ff847e87ff847e87ff847e87ff847e87ff847e87ff847e87ff847e87ff;
0x1847e87ff847e87ff847e87ff847e87ff847e87ff847e87ff847e87ff847e87ff;
0x1847e87ff847e87ff847e87ff847e87ff847e87ff847e87ff847e87ff5b6ee1ff;
0x15b6ee1ff5b6ee1ff5b6ee1ff5b6ee1fffbf236fffbf236ff847e87ff847e87ff;
0x1847e87ff847e87ff847e87ff847e87ff847e87ff847e87ff847e87ff847e87ff;
0x1847e87ff847e87ff847e87ff847e87ff847e87ff847e87ff847e87ff847e87ff;
0x1847e87ff847e87ff847e87ff847e87ff847e87ff847e87ff847e87ff847e87ff;
0x1847e87ff847e87ff847e87ff847e87ff847e87ff847e87ff847e87ff847e87ff;
0x1847e87ff847e87ff847e87ff847e87ff847e87ff847e87ff847e87ff847e87ff;
0x1847e87ff847e87ff847e87ff847e87ff847e87ff847e87ff847e87ff847e87ff;
0x1847e87ff847e87ff847e87ff847e87ff847e87ff847e87ff847e87ff847e87ff;
0x1847e87ff847e87ff847e87ff847e87ff847e87ff847e87ff847e87ff847e87ff;
0x1847e87ff847e87ff847e87ff847e87ff847e87ff847e87ff847e87ff847e87ff;
0x1847e87ff00000000000000000000000000000000000000000000000000000000;
0x10000000000000000000000000000000000000000000000000000000000000000;
0x10000000000000000000000000000000000000000000000000000000000000000;
0x10000000000000000000000000000000000000000000000000000000000000000;
0x10000000000000000000000000000000000000000000000000000000000000000;
0x10000000000000000000000000000000000000000000000000000000000000000;
0x10000000000000000000000000000000000000000000000000000000000000000;
0x10000000000000000000000000000000000000000000000000000000000000000;
0x1000000000000000000000000000000000000000000000000].
(** redeclipse/prefabs/castle/castle_gate_simple.vox (6824 bytes) *)
Definition vox_castle_castle_gate_simple : list Z := [
0x1564f5820960000004d41494e00000000941a000053495a450c00000000000000;
0x118000000080000000c00000058595a4964160000000000009805000000000001;
0x10100000102000001030000010400000105000001060000010700000108000001;
0x1090000010a0000010b0000010c0000010d0000010e0000010f00000110000001;
0x11100000112000001130000011400000115000001160000011700000100010001;
0x10101000102010001030100010401000105010001060100010701000108010001;
0x1090100010a0100010b0100010c0100010d0100010e0100010f01000110010001;
0x11101000112010001130100011401000115010001160100011701000100020001;
0x10102000102020001030200010402000105020001060200010702000108020001;
0x1090200010a0200010b0200010c0200010d0200010e0200010f02000110020001;
0x11102000112020001130200011402000115020001160200011702000100030001;
0x10103000102030001030300010403000105030001060300010703000108030001;
0x1090300010a0300010b0300010c0300010d0300010e0300010f03000110030001;
0x11103000112030001130300011403000115030001160300011703000100040001;
0x10104000102040001030400010404000105040001060400010704000108040001;
0x1090400010a0400010b0400010c0400010d0400010e0400010f04000110040001;
0x11104000112040001130400011404000115040001160400011704000100050001;
0x10105000102050001030500010405000105050001060500010705000108050001;
0x1090500010a0500010b0500010c0500010d0500010e0500010f05000110050001;
0x11105000112050001130500011405000115050001160500011705000100060001;
0x10106000102060001030600010406000105060001060600010706000108060001;
0x1090600010a0600010b0600010c0600010d0600010e0600010f06000110060001;
0x11106000112060001130600011406000115060001160600011706000100070001;
0x10107000102070001030700010407000105070001060700010707000108070001;
0x1090700010a0700010b0700010c0700010d0700010e0700010f07000110070001;
0x11107000112070001130700011407000115070001160700011707000100000101;
0x10100010102000101030001010400010105000101060001010700010110000101;
0x11100010112000101130001011400010115000101160001011700010100010101;
0x10101010102010101030101010401010105010101060101010701010108010105;
0x1090101050a0101050b0101051001010111010101120101011301010114010101;
0x11501010116010101170101010002010101020101020201010302010104020101;
0x10502010106020101070201011002010111020101120201011302010114020101;
0x11502010116020101170201010003010101030101020301010303010104030101;
0x10503010106030101070301011003010111030101120301011303010114030101;
0x11503010116030101170301010004010101040101020401010304010104040101;
0x10504010106040101070401011004010111040101120401011304010114040101;
0x11504010116040101170401010005010101050101020501010305010104050101;
0x10505010106050101070501011005010111050101120501011305010114050101;
0x11505010116050101170501010006010101060101020601010306010104060101;
0x10506010106060101070601010c0601050d0601050e0601050f06010510060101;
0x11106010112060101130601011406010115060101160601011706010100070101;
0x10107010102070101030701010407010105070101060701010707010110070101;
0x11107010112070101130701011407010115070101160701011707010100000201;
0x10100020102000201030002010400020105000201060002010700020110000201;
0x11100020112000201130002011400020115000201160002011700020100010201;
0x10101020102010201030102010401020105010201060102010701020108010205;
0x1090102050a0102050b0102051001020111010201120102011301020114010201;
0x11501020116010201170102010002020101020201020202010302020104020201;
0x10502020106020201070202011002020111020201120202011302020114020201;
0x11502020116020201170202010003020101030201020302010303020104030201;
0x10503020106030201070302011003020111030201120302011303020114030201;
0x11503020116030201170302010004020101040201020402010304020104040201;
0x10504020106040201070402011004020111040201120402011304020114040201;
0x11504020116040201170402010005020101050201020502010305020104050201;
0x10505020106050201070502011005020111050201120502011305020114050201;
0x11505020116050201170502010006020101060201020602010306020104060201;
0x10506020106060201070602010c0602050d0602050e0602050f06020510060201;
0x11106020112060201130602011406020115060201160602011706020100070201;
0x10107020102070201030702010407020105070201060702010707020110070201;
0x11107020112070201130702011407020115070201160702011707020100000301;
0x10100030102000301030003010400030105000301060003010700030110000301;
0x11100030112000301130003011400030115000301160003011700030100010301;
0x10101030102010301030103010401030105010301060103010701030108010305;
0x1090103050a0103050b0103051001030111010301120103011301030114010301;
0x11501030116010301170103010002030101020301020203010302030104020301;
0x10502030106020301070203011002030111020301120203011302030114020301;
0x11502030116020301170203010003030101030301020303010303030104030301;
0x10503030106030301070303011003030111030301120303011303030114030301;
0x11503030116030301170303010004030101040301020403010304030104040301;
0x10504030106040301070403011004030111040301120403011304030114040301;
0x11504030116040301170403010005030101050301020503010305030104050301;
0x10505030106050301070503011005030111050301120503011305030114050301;
0x11505030116050301170503010006030101060301020603010306030104060301;
0x10506030106060301070603010c0603050d0603050e0603050f06030510060301;
0x11106030112060301130603011406030115060301160603011706030100070301;
0x10107030102070301030703010407030105070301060703010707030110070301;
0x11107030112070301130703011407030115070301160703011707030100000401;
0x10100040102000401030004010400040105000401060004010700040110000401;
0x11100040112000401130004011400040115000401160004011700040100010401;
0x10101040102010401030104010401040105010401060104010701040108010405;
0x1090104050a0104050b0104051001040111010401120104011301040114010401;
0x11501040116010401170104010002040101020401020204010302040104020401;
0x10502040106020401070204011002040111020401120204011302040114020401;
0x11502040116020401170204010003040101030401020304010303040104030401;
0x10503040106030401070304011003040111030401120304011303040114030401;
0x11503040116030401170304010004040101040401020404010304040104040401;
0x10504040106040401070404011004040111040401120404011304040114040401;
0x11504040116040401170404010005040101050401020504010305040104050401;
0x10505040106050401070504011005040111050401120504011305040114050401;
0x11505040116050401170504010006040101060401020604010306040104060401;
0x10506040106060401070604010c0604050d0604050e0604050f06040510060401;
0x11106040112060401130604011406040115060401160604011706040100070401;
0x10107040102070401030704010407040105070401060704010707040110070401;
0x11107040112070401130704061407040615070401160704011707040100000501;
0x10100050102000501030005010400050105000501060005010700050110000501;
0x11100050112000501130005011400050115000501160005011700050100010501;
0x10101050102010501030105010401050105010501060105010701050110010501;
0x11101050112010501130105011401050115010501160105011701050100020501;
0x10102050102020501030205010402050105020501060205010702050110020501;
0x11102050112020501130205011402050115020501160205011702050100030501;
0x10103050102030501030305010403050105030501060305010703050110030501;
0x11103050112030501130305011403050115030501160305011703050100040501;
0x10104050102040501030405010404050105040501060405010704050110040501;
0x11104050112040501130405011404050115040501160405011704050100050501;
0x10105050102050501030505010405050105050501060505010705050110050501;
0x11105050112050501130505011405050115050501160505011705050100060501;
0x10106050102060501030605010406050105060501060605010706050110060501;
0x11106050112060501130605011406050115060501160605011706050100070501;
0x10107050102070501030705010407050105070501060705010707050110070501;
0x11107050112070506130705771407057715070506160705011707050100000601;
0x10100060102000601030006010400060105000601060006010700060110000601;
0x11100060112000601130006011400060115000601160006011700060100010601;
0x10101060102010601030106010401060105010601060106010701060110010601;
0x11101060112010601130106011401060115010601160106011701060100020601;
0x10102060102020601030206010402060105020601060206010702060110020601;
0x11102060112020601130206011402060115020601160206011702060100030601;
0x10103060102030601030306010403060105030601060306010703060110030601;
0x11103060112030601130306011403060115030601160306011703060100040601;
0x10104060102040601030406010404060105040601060406010704060110040601;
0x11104060112040601130406011404060115040601160406011704060100050601;
0x10105060102050601030506010405060105050601060506010705060110050601;
0x11105060112050601130506011405060115050601160506011705060100060601;
0x10106060102060601030606010406060105060601060606010706060110060601;
0x11106060112060601130606011406060115060601160606011706060100070601;
0x10107060102070601030706010407060105070601060706010707060110070601;
0x111070606120706771307067d1407062b15070677160706061707060100000701;
0x10100070102000701030007010400070105000701060007010700070110000701;
0x11100070112000701130007011400070115000701160007011700070100010701;
0x10101070102010701030107010401070105010701060107010701070110010701;
0x11101070112010701130107011401070115010701160107011701070100020701;
0x10102070102020701030207010402070105020701060207010702070110020701;
0x11102070112020701130207011402070115020701160207011702070100030701;
0x10103070102030701030307010403070105030701060307010703070110030701;
0x11103070112030701130307011403070115030701160307011703070100040701;
0x10104070102040701030407010404070105040701060407010704070110040701;
0x11104070112040701130407011404070115040701160407011704070100050701;
0x10105070102050701030507010405070105050701060507010705070110050701;
0x11105070112050701130507011405070115050701160507011705070100060701;
0x10106070102060701030607010406070105060701060607010706070110060701;
0x11106070112060701130607011406070115060701160607011706070100070701;
0x10107070102070701030707010407070105070701060707010707070110070701;
0x111070706120707771307072b1407077d15070777160707061707070100000801;
0x10100080102000801030008010400080105000801060008010700080108000801;
0x1090008010a0008010b0008010c0008010d0008010e0008010f00080110000801;
0x11100080112000801130008011400080115000801160008011700080100010801;
0x10101080102010801030108010401080105010801060108010701080108010801;
0x1090108010a0108010b0108010c0108010d0108010e0108010f01080110010801;
0x11101080112010801130108011401080115010801160108011701080100020801;
0x10102080102020801030208010402080105020801060208010702080108020801;
0x1090208010a0208010b0208010c0208010d0208010e0208010f02080110020801;
0x11102080112020801130208011402080115020801160208011702080100030801;
0x10103080102030801030308010403080105030801060308010703080108030801;
0x1090308010a0308010b0308010c0308010d0308010e0308010f03080110030801;
0x11103080112030801130308011403080115030801160308011703080100040801;
0x10104080102040801030408010404080105040801060408010704080108040801;
0x1090408010a0408010b0408010c0408010d0408010e0408010f04080110040801;
0x11104080112040801130408011404080115040801160408011704080100050801;
0x10105080102050801030508010405080105050801060508010705080108050801;
0x1090508010a0508010b0508010c0508010d0508010e0508010f05080110050801;
0x11105080112050801130508011405080115050801160508011705080100060801;
0x10106080102060801030608010406080105060801060608010706080108060801;
0x1090608010a0608010b0608010c0608010d0608010e0608010f06080110060801;
0x11106080112060801130608011406080115060801160608011706080100070801;
0x10107080102070801030708010407080105070801060708010707080108070801;
0x1090708010a0708010b0708010c0708010d0708010e0708010f07080110070801;
0x11107080612070877130708771407087715070877160708061707080100000901;
0x10100090102000901030009010400090105000901060009010700090108000901;
0x1090009010a0009010b0009010c0009010d0009010e0009010f00090110000901;
0x11100090112000901130009011400090115000901160009011700090100070901;
0x10107090102070901030709010407090105070901060709010707090108070901;
0x1090709010a0709010b0709010c0709010d0709010e0709010f07090110070901;
0x11107090612070906130709061407090615070906160709061707090100000a01;
0x101000a0102000a0103000a0104000a0105000a0106000a0107000a0108000a01;
0x109000a010a000a010b000a010c000a010d000a010e000a010f000a0110000a01;
0x111000a0112000a0113000a0114000a0115000a0116000a0117000a0100070a01;
0x101070a0102070a0103070a0104070a0105070a0106070a0107070a0108070a01;
0x109070a010a070a010b070a010c070a010d070a010e070a010f070a0110070a01;
0x111070a0112070a0113070a0114070a0115070a0116070a0117070a0100000b01;
0x102000b0104000b0106000b0108000b010a000b010c000b010e000b0110000b01;
0x112000b0114000b0116000b0100070b0102070b0104070b0106070b0108070b01;
0x10a070b010c070b010e070b0110070b0112070b0114070b0116070b0152474241;
0x1000400000000000000000000847e87ff847e87ff847e87ff847e87ff524b24ff;
0x13f3f74ff847e87ff847e87ff847e87ff847e87ff847e87ff847e87ff847e87ff;
0x1847e87ff847e87ff847e87ff847e87ff847e87ff847e87ff524b24ff524b24ff;
0x13f3f74ff847e87ff847e87ff847e87ff847e87ff847e87ff847e87ff847e87ff;
0x1847e87ff847e87ff847e87ff847e87ff847e87ff847e87ff847e87ff847e87ff;
0x1524b24ff524b24ff524b24ff3f3f74ff3f3f74ff6abe30ff6abe30ff847e87ff;
0x1847e87ff847e87ff847e87ff847e87ff847e87ff847e87ff847e87ff847e87ff;
0x1847e87ff847e87ff847e87ff847e87ff847e87ff847e87ff847e87ff847e87ff;
0x1524b24ff524b24ff524b24ff524b24ff524b24ff847e87ff847e87ff847e87ff;
0x1847e87ff847e87ff847e87ff847e87ff847e87ff847e87ff847e87ff847e87ff;
0x1847e87ff847e87ff847e87ff847e87ff847e87ff847e87ff847e87ff847e87ff;
0x1847e87ff847e87ff847e87ff847e87ff847e87ff847e87ff847e87ff847e87ff;
0x1847e87ff847e87ff847e87ff847e87ff847e87ff847e87ff847e87ff847e87ff;
0x1847e87ff847e87ff847e87ff847e87ff847e87ff847e87ff847e87ff847e87ff;
0x1847e87ff847e87ff847e87ff3f3f74ff3f3f74ff3f3f74ff3f3f74ff847e87ff;
0x13f3f74ff5b6ee1ff5b6ee1ff5b6ee1ff5b6ee1ff5b6ee1ff5b6ee1fffbf236ff;
0x1fbf236ff847e87ff847e87ff847e87ff847e87ff847e87ff847e87ff847e87ff;
0x1847e87ff847e87ff847e87ff847e87ff847e87ff847e87ff847e87ff847e87ff;
0x1847e87ff847e87ff847e87ff847e87ff847e87ff847e87ff847e87ff847e87ff;
0x1847e87ff847e87ff847e87ff847e87ff847e87ff847e87ff847e87ff847e87ff;
0x1847e87ff847e87ff847e87ff847e87ff847e87ff524b24ff847e87ff847e87ff;
0x1847e87ff847e87ff847e87ff847e87ff847e87ff847e87ff847e87ff847e87ff;
0x1847e87ff847e87ff847e87ff847e87ff847e87ff847e87ff847e87ff847e87ff;
0x1847e87ff847e87ff847e87ff0000000000000000000000000000000000000000;
0x10000000000000000000000000000000000000000000000000000000000000000;
0x10000000000000000000000000000000000000000000000000000000000000000;
0x10000000000000000000000000000000000000000000000000000000000000000;
0x10000000000000000000000000000000000000000000000000000000000000000;
0x10000000000000000000000000000000000000000000000000000000000000000;
0x10000000000000000000000000000000000000000000000000000000000000000;
0x10000000000000000000000000000000000000000000000000000000000000000;
0x10000000000000000000000000000000000000000000000000000000000000000;
0x10000000000000000].
(** redeclipse/prefabs/castle/castle_large.vox (21312 bytes) *)
Definition vox_castle_castle_large : list Z := [
0x1564f5820960000004d41494e000000002c53000053495a450c00000000000000;
0x128000000280000001500000058595a49fc4e000000000000be13000010000001;
0x11100000112000001130000011400000115000001160000011700000110010001;
0x11101000112010001130100011401000115010001160100011701000110020001;
0x11102000112020001130200011402000115020001160200011702000110030001;
0x11103000112030001130300011403000115030001160300011703000110040001;
0x11104000112040001130400011404000115040001160400011704000110050001;
0x11105000112050001130500011405000115050001160500011705000110060001;
0x11106000112060001130600011406000115060001160600011706000110070001;
0x11107000112070001130700011407000115070001160700011707000110080001;
0x1110800011208000113080001140800011508000116080001170800010e090001;
0x10f09000110090001110900011209000113090001140900011509000116090001;
0x11709000118090001190900010d0a00010e0a00010f0a0001100a0001110a0001;
0x1120a0001130a0001140a0001150a0001160a0001170a0001180a0001190a0001;
0x11a0a00010c0b00010d0b00010e0b00010f0b0001100b0001110b0001120b0001;
0x1130b0001140b0001150b0001160b0001170b0001180b0001190b00011a0b0001;
0x11b0b00010b0c00010c0c00010d0c00010e0c00010f0c0001100c0001110c0001;
0x1120c0001130c0001140c0001150c0001160c0001170c0001180c0001190c0001;
0x11a0c00011b0c00011c0c00010a0d00010b0d00010c0d00010d0d00010e0d0001;
0x10f0d0001100d0001110d0001120d0001130d0001140d0001150d0001160d0001;
0x1170d0001180d0001190d00011a0d00011b0d00011c0d00011d0d0001090e0001;
0x10a0e00010b0e00010c0e00010d0e00010e0e00010f0e0001100e0001110e0001;
0x1120e0001130e0001140e0001150e0001160e0001170e0001180e0001190e0001;
0x11a0e00011b0e00011c0e00011d0e00011e0e0001090f00010a0f00010b0f0001;
0x10c0f00010d0f00010e0f00010f0f0001100f0001110f0001120f0001130f0001;
0x1140f0001150f0001160f0001170f0001180f0001190f00011a0f00011b0f0001;
0x11c0f00011d0f00011e0f00010010000101100001021000010310000104100001;
0x105100001061000010710000108100001091000010a1000010b1000010c100001;
0x10d1000010e1000010f1000011010000111100001121000011310000114100001;
0x115100001161000011710000118100001191000011a1000011b1000011c100001;
0x11d1000011e1000011f1000012010000121100001221000012310000124100001;
0x12510000126100001271000010011000101110001021100010311000104110001;
0x105110001061100010711000108110001091100010a1100010b1100010c110001;
0x10d1100010e1100010f1100011011000111110001121100011311000114110001;
0x115110001161100011711000118110001191100011a1100011b1100011c110001;
0x11d1100011e1100011f1100012011000121110001221100012311000124110001;
0x12511000126110001271100010012000101120001021200010312000104120001;
0x105120001061200010712000108120001091200010a1200010b1200010c120001;
0x10d1200010e1200010f1200011012000111120001121200011312000114120001;
0x115120001161200011712000118120001191200011a1200011b1200011c120001;
0x11d1200011e1200011f1200012012000121120001221200012312000124120001;
0x12512000126120001271200010013000101130001021300010313000104130001;
0x105130001061300010713000108130001091300010a1300010b1300010c130001;
0x10d1300010e1300010f1300011013000111130001121300011313000114130001;
0x115130001161300011713000118130001191300011a1300011b1300011c130001;
0x11d1300011e1300011f1300012013000121130001221300012313000124130001;
0x12513000126130001271300010014000101140001021400010314000104140001;
0x105140001061400010714000108140001091400010a1400010b1400010c140001;
0x10d1400010e1400010f1400011014000111140001121400011314000114140001;
0x115140001161400011714000118140001191400011a1400011b1400011c140001;
0x11d1400011e1400011f1400012014000121140001221400012314000124140001;
0x12514000126140001271400010015000101150001021500010315000104150001;
0x105150001061500010715000108150001091500010a1500010b1500010c150001;
0x10d1500010e1500010f1500011015000111150001121500011315000114150001;
0x115150001161500011715000118150001191500011a1500011b1500011c150001;
0x11d1500011e1500011f1500012015000121150001221500012315000124150001;
0x12515000126150001271500010016000101160001021600010316000104160001;
0x105160001061600010716000108160001091600010a1600010b1600010c160001;
0x10d1600010e1600010f1600011016000111160001121600011316000114160001;
0x115160001161600011716000118160001191600011a1600011b1600011c160001;
0x11d1600011e1600011f1600012016000121160001221600012316000124160001;
0x12516000126160001271600010017000101170001021700010317000104170001;
0x105170001061700010717000108170001091700010a1700010b1700010c170001;
0x10d1700010e1700010f1700011017000111170001121700011317000114170001;
0x115170001161700011717000118170001191700011a1700011b1700011c170001;
0x11d1700011e1700011f1700012017000121170001221700012317000124170001;
0x1251700012617000127170001091800010a1800010b1800010c1800010d180001;
0x10e1800010f180001101800011118000112180001131800011418000115180001;
0x1161800011718000118180001191800011a1800011b1800011c1800011d180001;
0x11e180001091900010a1900010b1900010c1900010d1900010e1900010f190001;
0x11019000111190001121900011319000114190001151900011619000117190001;
0x118190001191900011a1900011b1900011c1900011d1900011e1900010a1a0001;
0x10b1a00010c1a00010d1a00010e1a00010f1a0001101a0001111a0001121a0001;
0x1131a0001141a0001151a0001161a0001171a0001181a0001191a00011a1a0001;
0x11b1a00011c1a00011d1a00010b1b00010c1b00010d1b00010e1b00010f1b0001;
0x1101b0001111b0001121b0001131b0001141b0001151b0001161b0001171b0001;
0x1181b0001191b00011a1b00011b1b00011c1b00010d1c00010e1c00010f1c0001;
0x1101c0001111c0001121c0001131c0001141c0001151c0001161c0001171c0001;
0x1181c0001191c00011a1c00011b1c00010d1d00010e1d00010f1d0001101d0001;
0x1111d0001121d0001131d0001141d0001151d0001161d0001171d0001181d0001;
0x1191d00010e1e00010f1e0001101e0001111e0001121e0001131e0001141e0001;
0x1151e0001161e0001171e0001181e0001191e0001101f0001111f0001121f0001;
0x1131f0001141f0001151f0001161f0001171f0001102000011120000112200001;
0x11320000114200001152000011620000117200001102100011121000112210001;
0x11321000114210001152100011621000117210001102200011122000112220001;
0x11322000114220001152200011622000117220001102300011123000112230001;
0x11323000114230001152300011623000117230001102400011124000112240001;
0x11324000114240001152400011624000117240001102500011125000112250001;
0x11325000114250001152500011625000117250001102600011126000112260001;
0x11326000114260001152600011626000117260001102700011127000112270001;
0x11327000114270001152700011627000117270001100001011100010112000101;
0x11300010114000101150001011600010117000101100101011101010112010101;
0x11301010114010101150101011601010117010101100201011102010112020101;
0x11302010114020101150201011602010117020101100301011103010112030101;
0x11303010114030101150301011603010117030101100401011104010112040101;
0x11304010114040101150401011604010117040101100501011105010112050101;
0x11305010114050101150501011605010117050101100601011106010112060101;
0x11306010114060101150601011606010117060101100701011107010112070101;
0x11307010114070101150701011607010117070101100801011108010112080101;
0x113080101140801011508010116080101170801010e0901010f09010110090101;
0x1120901011309010114090101150901011709010118090101190901010d0a0101;
0x1120a0101130a0101140a0101150a01011a0a01010c0b0101120b0101130b0101;
0x1140b0101150b01011b0b01010b0c0101120c0101130c0101140c0101150c0101;
0x11c0c01010a0d0101120d0101130d0101140d0101150d01011d0d0101090e0101;
0x1120e0101130e0101140e0101150e01011e0e0101090f01011e0f010100100101;
0x10110010102100101031001010410010105100101061001010710010108100101;
0x1091001011e1001011f1001012010010121100101221001012310010124100101;
0x12510010126100101271001010011010101110101021101010311010104110101;
0x1051101010611010107110101081101011f110101201101012111010122110101;
0x12311010124110101251101012611010127110101001201010112010102120101;
0x10312010104120101051201010612010107120101081201011f12010120120101;
0x12112010122120101231201012412010125120101261201012712010100130101;
0x10113010102130101031301010413010105130101061301010713010108130101;
0x11f13010120130101211301012213010123130101241301012513010126130101;
0x12713010100140101011401010214010103140101041401010514010106140101;
0x107140101081401011f1401012014010121140101221401012314010124140101;
0x12514010126140101271401010015010101150101021501010315010104150101;
0x1051501010615010107150101081501011f150101201501012115010122150101;
0x12315010124150101251501012615010127150101001601010116010102160101;
0x10316010104160101051601010616010107160101081601011f16010120160101;
0x12116010122160101231601012416010125160101261601012716010100170101;
0x10117010102170101031701010417010105170101061701010717010108170101;
0x1091701011e1701011f1701012017010121170101221701012317010124170101;
0x12517010126170101271701010918010112180101131801011418010115180101;
0x11e18010109190101121901011319010114190101151901011e1901010a1a0101;
0x1121a0101131a0101141a0101151a01011d1a01010b1b0101121b0101131b0101;
0x1141b0101151b01011c1b01010c1c0101121c0101131c0101141c0101151c0101;
0x11b1c01010d1d0101121d0101131d0101141d0101151d01011a1d01010e1e0101;
0x10f1e0101101e0101121e0101131e0101141e0101151e0101171e0101181e0101;
0x1191e0101101f0101111f0101121f0101131f0101141f0101151f0101161f0101;
0x1171f010110200101112001011220010113200101142001011520010116200101;
0x11720010110210101112101011221010113210101142101011521010116210101;
0x11721010110220101112201011222010113220101142201011522010116220101;
0x11722010110230101112301011223010113230101142301011523010116230101;
0x11723010110240101112401011224010113240101142401011524010116240101;
0x11724010110250101112501011225010113250101142501011525010116250101;
0x11725010110260101112601011226010113260101142601011526010116260101;
0x11726010110270101112701011227010113270101142701011527010116270101;
0x11727010110000201110002011200020113000201140002011500020116000201;
0x11700020110010201110102011201020113010201140102011501020116010201;
0x11701020110020201110202011202020113020201140202011502020116020201;
0x11702020110030201110302011203020113030201140302011503020116030201;
0x11703020110040201110402011204020113040201140402011504020116040201;
0x11704020110050201110502011205020113050201140502011505020116050201;
0x11705020110060201110602011206020113060201140602011506020116060201;
0x11706020110070201110702011207020113070201140702011507020116070201;
0x11707020110080201110802011208020113080201140802011508020116080201;
0x1170802010e0902010f0902011009020112090201130902011409020115090201;
0x11709020118090201190902010d0a0201120a0201130a0201140a0201150a0201;
0x11a0a02010c0b0201120b0201130b0201140b0201150b02011b0b02010b0c0201;
0x1120c0201130c0201140c0201150c02011c0c02010a0d0201120d0201130d0201;
0x1140d0201150d02011d0d0201090e02011e0e0201090f02011e0f020100100201;
0x10110020102100201031002010410020105100201061002010710020108100201;
0x1091002011e1002011f1002012010020121100201221002012310020124100201;
0x12510020126100201271002010011020101110201021102010311020104110201;
0x1051102010611020107110201081102011f110201201102012111020122110201;
0x12311020124110201251102012611020127110201001202010112020102120201;
0x10312020104120201051202010612020107120201081202011f12020120120201;
0x12112020122120201231202012412020125120201261202012712020100130201;
0x10113020102130201031302010413020105130201061302010713020108130201;
0x11f13020120130201211302012213020123130201241302012513020126130201;
0x12713020100140201011402010214020103140201041402010514020106140201;
0x107140201081402011f1402012014020121140201221402012314020124140201;
0x12514020126140201271402010015020101150201021502010315020104150201;
0x1051502010615020107150201081502011f150201201502012115020122150201;
0x12315020124150201251502012615020127150201001602010116020102160201;
0x10316020104160201051602010616020107160201081602011f16020120160201;
0x12116020122160201231602012416020125160201261602012716020100170201;
0x10117020102170201031702010417020105170201061702010717020108170201;
0x1091702011e1702011f1702012017020121170201221702012317020124170201;
0x1251702012617020127170201091802011e180201091902011219020113190201;
0x114190201151902011e1902010a1a0201121a0201131a0201141a0201151a0201;
0x11d1a02010b1b0201121b0201131b0201141b0201151b02011c1b02010c1c0201;
0x1121c0201131c0201141c0201151c02011b1c02010d1d0201121d0201131d0201;
0x1141d0201151d02011a1d02010e1e02010f1e0201101e0201121e0201131e0201;
0x1141e0201151e0201171e0201181e0201191e0201101f0201111f0201121f0201;
0x1131f0201141f0201151f0201161f0201171f0201102002011120020112200201;
0x11320020114200201152002011620020117200201102102011121020112210201;
0x11321020114210201152102011621020117210201102202011122020112220201;
0x11322020114220201152202011622020117220201102302011123020112230201;
0x11323020114230201152302011623020117230201102402011124020112240201;
0x11324020114240201152402011624020117240201102502011125020112250201;
0x11325020114250201152502011625020117250201102602011126020112260201;
0x11326020114260201152602011626020117260201102702011127020112270201;
0x11327020114270201152702011627020117270201100003011100030112000301;
0x11300030114000301150003011600030117000301100103011101030112010301;
0x11301030114010301150103011601030117010301100203011102030112020301;
0x11302030114020301150203011602030117020301100303011103030112030301;
0x11303030114030301150303011603030117030301100403011104030112040301;
0x11304030114040301150403011604030117040301100503011105030112050301;
0x11305030114050301150503011605030117050301100603011106030112060301;
0x11306030114060301150603011606030117060301100703011107030112070301;
0x11307030114070301150703011607030117070301100803011108030112080301;
0x113080301140803011508030116080301170803010e0903010f09030110090301;
0x1120903011309030114090301150903011709030118090301190903010d0a0301;
0x1120a0301130a0301140a0301150a03011a0a03010c0b0301120b0301130b0301;
0x1140b0301150b03011b0b03010b0c0301120c0301130c0301140c0301150c0301;
0x11c0c03010a0d03011d0d0301090e03011e0e0301090f03011e0f030100100301;
0x10110030102100301031003010410030105100301061003010710030108100301;
0x1091003011e1003011f1003012010030121100301221003012310030124100301;
0x12510030126100301271003010011030101110301021103010311030104110301;
0x1051103010611030107110301081103011f110301201103012111030122110301;
0x12311030124110301251103012611030127110301001203010112030102120301;
0x10312030104120301051203010612030107120301081203011f12030120120301;
0x12112030122120301231203012412030125120301261203012712030100130301;
0x10113030102130301031303010413030105130301061303010713030108130301;
0x11f13030120130301211303012213030123130301241303012513030126130301;
0x12713030100140301011403010214030103140301041403010514030106140301;
0x107140301081403011f1403012014030121140301221403012314030124140301;
0x12514030126140301271403010015030101150301021503010315030104150301;
0x1051503010615030107150301081503011f150301201503012115030122150301;
0x12315030124150301251503012615030127150301001603010116030102160301;
0x10316030104160301051603010616030107160301081603011f16030120160301;
0x12116030122160301231603012416030125160301261603012716030100170301;
0x10117030102170301031703010417030105170301061703010717030108170301;
0x1091703011e1703011f1703012017030121170301221703012317030124170301;
0x1251703012617030127170301091803011e180301091903011e1903010a1a0301;
0x1121a0301131a0301141a0301151a03011d1a03010b1b0301121b0301131b0301;
0x1141b0301151b03011c1b03010c1c0301121c0301131c0301141c0301151c0301;
0x11b1c03010d1d0301121d0301131d0301141d0301151d03011a1d03010e1e0301;
0x10f1e0301101e0301121e0301131e0301141e0301151e0301171e0301181e0301;
0x1191e0301101f0301111f0301121f0301131f0301141f0301151f0301161f0301;
0x1171f030110200301112003011220030113200301142003011520030116200301;
0x11720030110210301112103011221030113210301142103011521030116210301;
0x11721030110220301112203011222030113220301142203011522030116220301;
0x11722030110230301112303011223030113230301142303011523030116230301;
0x11723030110240301112403011224030113240301142403011524030116240301;
0x11724030110250301112503011225030113250301142503011525030116250301;
0x11725030110260301112603011226030113260301142603011526030116260301;
0x11726030110270301112703011227030113270301142703011527030116270301;
0x11727030110000401110004011200040113000401140004011500040116000401;
0x11700040110010401110104011201040113010401140104011501040116010401;
0x11701040110020401110204011202040113020401140204011502040116020401;
0x11702040110030401110304011203040113030401140304011503040116030401;
0x11703040110040401110404011204040113040401140404011504040116040401;
0x11704040110050401110504011205040113050401140504011505040116050401;
0x11705040110060401110604011206040113060401140604011506040116060401;
0x11706040110070401110704011207040113070401140704011507040116070401;
0x11707040110080401110804011208040113080401140804011508040116080401;
0x1170804010e0904010f0904011009040112090401130904011409040115090401;
0x11709040118090401190904010d0a0401120a0401130a0401140a0401150a0401;
0x11a0a04010c0b0401120b0401130b0401140b0401150b04011b0b04010b0c0401;
0x11c0c04010a0d04011d0d0401090e04011e0e0401090f04011e0f040100100401;
0x10110040102100401031004010410040105100401061004010710040108100401;
0x1091004011e1004011f1004012010040121100401221004012310040124100401;
0x12510040126100401271004010011040101110401021104010311040104110401;
0x1051104010611040107110401081104011f110401201104012111040122110401;
0x12311040124110401251104012611040127110401001204010112040102120401;
0x10312040104120401051204010612040107120401081204011f12040120120401;
0x12112040122120401231204012412040125120401261204012712040100130401;
0x10113040102130401031304010413040105130401061304010713040108130401;
0x11f13040120130401211304012213040123130401241304012513040126130401;
0x12713040100140401011404010214040103140401041404010514040106140401;
0x107140401081404011f1404012014040121140401221404012314040124140401;
0x12514040126140401271404010015040101150401021504010315040104150401;
0x1051504010615040107150401081504011f150401201504012115040122150401;
0x12315040124150401251504012615040127150401001604010116040102160401;
0x10316040104160401051604010616040107160401081604011f16040120160401;
0x12116040122160401231604012416040125160401261604012716040100170401;
0x10117040102170401031704010417040105170401061704010717040108170401;
0x1091704011e1704011f1704012017040121170401221704012317040124170401;
0x1251704012617040127170401091804011e180401091904011e1904010a1a0401;
0x11d1a04010b1b0401121b0401131b0401141b0401151b04011c1b04010c1c0401;
0x1121c0401131c0401141c0401151c04011b1c04010d1d0401121d0401131d0401;
0x1141d0401151d04011a1d04010e1e04010f1e0401101e0401121e0401131e0401;
0x1141e0401151e0401171e0401181e0401191e0401101f0401111f0401121f0401;
0x1131f0401141f0401151f0401161f0401171f0401102004011120040112200401;
0x11320040114200401152004011620040117200401102104011121040112210401;
0x11321040114210401152104011621040117210401102204011122040112220401;
0x11322040114220401152204011622040117220401102304011123040112230401;
0x11323040114230401152304011623040117230401102404011124040112240401;
0x11324040114240401152404011624040117240401102504011125040112250401;
0x11325040114250401152504011625040117250401102604011126040112260401;
0x11326040114260401152604011626040117260401102704011127040112270401;
0x11327040114270401152704011627040117270401100005011100050112000501;
0x11300050114000501150005011600050117000501100105011101050112010501;
0x11301050114010501150105011601050117010501100205011102050112020501;
0x11302050114020501150205011602050117020501100305011103050112030501;
0x11303050114030501150305011603050117030501100405011104050112040501;
0x11304050114040501150405011604050117040501100505011105050112050501;
0x11305050114050501150505011605050117050501100605011106050112060501;
0x11306050114060501150605011606050117060501100705011107050112070501;
0x11307050114070501150705011607050117070501100805011108050112080501;
0x113080501140805011508050116080501170805010e0905010f09050110090501;
0x1120905011309050114090501150905011709050118090501190905010d0a0501;
0x1120a0501130a0501140a0501150a05011a0a05010c0b05011b0b05010b0c0501;
0x11c0c05010a0d05011d0d0501090e05011e0e0501090f05011e0f050100100501;
0x10110050102100501031005010410050105100501061005010710050108100501;
0x1091005011e1005011f1005012010050121100501221005012310050124100501;
0x12510050126100501271005010011050101110501021105010311050104110501;
0x1051105010611050107110501081105011f110501201105012111050122110501;
0x12311050124110501251105012611050127110501001205010112050102120501;
0x10312050104120501051205010612050107120501081205011f12050120120501;
0x12112050122120501231205012412050125120501261205012712050100130501;
0x10113050102130501031305010413050105130501061305010713050108130501;
0x11f13050120130501211305012213050123130501241305012513050126130501;
0x12713050100140501011405010214050103140501041405010514050106140501;
0x107140501081405011f1405012014050121140501221405012314050124140501;
0x12514050126140501271405010015050101150501021505010315050104150501;
0x1051505010615050107150501081505011f150501201505012115050122150501;
0x12315050124150501251505012615050127150501001605010116050102160501;
0x10316050104160501051605010616050107160501081605011f16050120160501;
0x12116050122160501231605012416050125160501261605012716050100170501;
0x10117050102170501031705010417050105170501061705010717050108170501;
0x1091705011e1705011f1705012017050121170501221705012317050124170501;
0x1251705012617050127170501091805011e180501091905011e1905010a1a0501;
0x11d1a05010b1b05011c1b05010c1c0501121c0501131c0501141c0501151c0501;
0x11b1c05010d1d0501121d0501131d0501141d0501151d05011a1d05010e1e0501;
0x10f1e0501101e0501121e0501131e0501141e0501151e0501171e0501181e0501;
0x1191e0501101f0501111f0501121f0501131f0501141f0501151f0501161f0501;
0x1171f050110200501112005011220050113200501142005011520050116200501;
0x11720050110210501112105011221050113210501142105011521050116210501;
0x11721050110220501112205011222050113220501142205011522050116220501;
0x11722050110230501112305011223050113230501142305011523050116230501;
0x11723050110240501112405011224050113240501142405011524050116240501;
0x11724050110250501112505011225050113250501142505011525050116250501;
0x11725050110260501112605011226050113260501142605011526050116260501;
0x11726050110270501112705011227050113270501142705011527050116270501;
0x11727050110000601110006011200060113000601140006011500060116000601;
0x11700060110010601110106011201060113010601140106011501060116010601;
0x11701060110020601110206011202060113020601140206011502060116020601;
0x11702060110030601110306011203060113030601140306011503060116030601;
0x11703060110040601110406011204060113040601140406011504060116040601;
0x11704060110050601110506011205060113050601140506011505060116050601;
0x11705060110060601110606011206060113060601140606011506060116060601;
0x11706060110070601110706011207060113070601140706011507060116070601;
0x11707060110080601110806011208060113080601140806011508060116080601;
0x1170806010e0906010f0906011009060112090601130906011409060115090601;
0x11709060118090601190906010d0a06011a0a06010c0b06011b0b06010b0c0601;
0x11c0c06010a0d06011d0d0601090e06011e0e0601090f06011e0f060100100601;
0x10110060102100601031006010410060105100601061006010710060108100601;
0x1091006011e1006011f1006012010060121100601221006012310060124100601;
0x12510060126100601271006010011060101110601021106010311060104110601;
0x1051106010611060107110601081106011f110601201106012111060122110601;
0x12311060124110601251106012611060127110601001206010112060102120601;
0x10312060104120601051206010612060107120601081206011f12060120120601;
0x12112060122120601231206012412060125120601261206012712060100130601;
0x10113060102130601031306010413060105130601061306010713060108130601;
0x11f13060120130601211306012213060123130601241306012513060126130601;
0x12713060100140601011406010214060103140601041406010514060106140601;
0x107140601081406011f1406012014060121140601221406012314060124140601;
0x12514060126140601271406010015060101150601021506010315060104150601;
0x1051506010615060107150601081506011f150601201506012115060122150601;
0x12315060124150601251506012615060127150601001606010116060102160601;
0x10316060104160601051606010616060107160601081606011f16060120160601;
0x12116060122160601231606012416060125160601261606012716060100170601;
0x10117060102170601031706010417060105170601061706010717060108170601;
0x1091706011e1706011f1706012017060121170601221706012317060124170601;
0x1251706012617060127170601091806011e180601091906011e1906010a1a0601;
0x11d1a06010b1b06011c1b06010c1c06011b1c06010d1d0601121d0601131d0601;
0x1141d0601151d06011a1d06010e1e06010f1e0601101e0601121e0601131e0601;
0x1141e0601151e0601171e0601181e0601191e0601101f0601111f0601121f0601;
0x1131f0601141f0601151f0601161f0601171f0601102006011120060112200601;
0x11320060114200601152006011620060117200601102106011121060112210601;
0x11321060114210601152106011621060117210601102206011122060112220601;
0x11322060114220601152206011622060117220601102306011123060112230601;
0x11323060114230601152306011623060117230601102406011124060112240601;
0x11324060114240601152406011624060117240601102506011125060112250601;
0x11325060114250601152506011625060117250601102606011126060112260601;
0x11326060114260601152606011626060117260601102706011127060112270601;
0x11327060114270601152706011627060117270601100007011100070112000701;
0x11300070114000701150007011600070117000701100107011101070112010701;
0x11301070114010701150107011601070117010701100207011102070112020701;
0x11302070114020701150207011602070117020701100307011103070112030701;
0x11303070114030701150307011603070117030701100407011104070112040701;
0x11304070114040701150407011604070117040701100507011105070112050701;
0x11305070114050701150507011605070117050701100607011106070112060701;
0x11306070114060701150607011606070117060701100707011107070112070701;
0x11307070114070701150707011607070117070701100807011108070112080701;
0x113080701140807011508070116080701170807010e0907010f09070110090701;
0x11709070118090701190907010d0a07011a0a07010c0b07011b0b07010b0c0701;
0x11c0c07010a0d07011d0d0701090e07011e0e0701090f07011e0f070100100701;
0x10110070102100701031007010410070105100701061007010710070108100701;
0x1091007011e1007011f1007012010070121100701221007012310070124100701;
0x12510070126100701271007010011070101110701021107010311070104110701;
0x1051107010611070107110701081107011f110701201107012111070122110701;
0x12311070124110701251107012611070127110701001207010112070102120701;
0x10312070104120701051207010612070107120701081207011f12070120120701;
0x12112070122120701231207012412070125120701261207012712070100130701;
0x10113070102130701031307010413070105130701061307010713070108130701;
0x11f13070120130701211307012213070123130701241307012513070126130701;
0x12713070100140701011407010214070103140701041407010514070106140701;
0x107140701081407011f1407012014070121140701221407012314070124140701;
0x12514070126140701271407010015070101150701021507010315070104150701;
0x1051507010615070107150701081507011f150701201507012115070122150701;
0x12315070124150701251507012615070127150701001607010116070102160701;
0x10316070104160701051607010616070107160701081607011f16070120160701;
0x12116070122160701231607012416070125160701261607012716070100170701;
0x10117070102170701031707010417070105170701061707010717070108170701;
0x1091707011e1707011f1707012017070121170701221707012317070124170701;
0x1251707012617070127170701091807011e180701091907011e1907010a1a0701;
0x11d1a07010b1b07011c1b07010c1c07011b1c07010d1d07011a1d07010e1e0701;
0x10f1e0701101e0701121e0701131e0701141e0701151e0701171e0701181e0701;
0x1191e0701101f0701111f0701121f0701131f0701141f0701151f0701161f0701;
0x1171f070110200701112007011220070113200701142007011520070116200701;
0x11720070110210701112107011221070113210701142107011521070116210701;
0x11721070110220701112207011222070113220701142207011522070116220701;
0x11722070110230701112307011223070113230701142307011523070116230701;
0x11723070110240701112407011224070113240701142407011524070116240701;
0x11724070110250701112507011225070113250701142507011525070116250701;
0x11725070110260701112607011226070113260701142607011526070116260701;
0x11726070110270701112707011227070113270701142707011527070116270701;
0x11727070110000801110008011200080113000801140008011500080116000801;
0x11700080110010801110108011201080113010801140108011501080116010801;
0x11701080110020801110208011202080113020801140208011502080116020801;
0x11702080110030801110308011203080113030801140308011503080116030801;
0x11703080110040801110408011204080113040801140408011504080116040801;
0x11704080110050801110508011205080113050801140508011505080116050801;
0x11705080110060801110608011206080113060801140608011506080116060801;
0x11706080110070801110708011207080113070801140708011507080116070801;
0x117070801100808011108080116080801170808010e0908010f09080110090801;
0x11709080118090801190908010d0a08011a0a08010c0b08011b0b08010b0c0801;
0x11c0c08010a0d08011d0d0801090e08011e0e0801090f08011e0f080100100801;
0x10110080102100801031008010410080105100801061008010710080108100801;
0x1091008011e1008011f1008012010080121100801221008012310080124100801;
0x12510080126100801271008010011080101110801021108010311080104110801;
0x1051108010611080107110801081108011f110801201108012111080122110801;
0x12311080124110801251108012611080127110801001208010112080102120801;
0x1031208010412080105120801061208010712080108120801091208011e120801;
0x11f12080120120801211208012212080123120801241208012512080126120801;
0x12712080100130801011308010213080103130801041308010513080106130801;
0x10713080108130801091308011e1308011f130801201308012113080122130801;
0x12313080124130801251308012613080127130801001408010114080102140801;
0x1031408010414080105140801061408010714080108140801091408011e140801;
0x11f14080120140801211408012214080123140801241408012514080126140801;
0x12714080100150801011508010215080103150801041508010515080106150801;
0x10715080108150801091508011e1508011f150801201508012115080122150801;
0x12315080124150801251508012615080127150801001608010116080102160801;
0x10316080104160801051608010616080107160801081608011f16080120160801;
0x12116080122160801231608012416080125160801261608012716080100170801;
0x10117080102170801031708010417080105170801061708010717080108170801;
0x1091708011e1708011f1708012017080121170801221708012317080124170801;
0x1251708012617080127170801091808011e180801091908011e1908010a1a0801;
0x11d1a08010b1b08011c1b08010c1c08011b1c08010d1d08011a1d08010e1e0801;
0x10f1e0801101e0801171e0801181e0801191e0801101f0801111f0801121f0801;
0x1131f0801141f0801151f0801161f0801171f0801102008011120080112200801;
0x11320080114200801152008011620080117200801102108011121080112210801;
0x11321080114210801152108011621080117210801102208011122080112220801;
0x11322080114220801152208011622080117220801102308011123080112230801;
0x11323080114230801152308011623080117230801102408011124080112240801;
0x11324080114240801152408011624080117240801102508011125080112250801;
0x11325080114250801152508011625080117250801102608011126080112260801;
0x11326080114260801152608011626080117260801102708011127080112270801;
0x11327080114270801152708011627080117270801100009011700090110010901;
0x11701090110020901170209011003090117030901100409011704090110050901;
0x11705090110060901170609011007090117070901100809011108090116080901;
0x1170809010e0909010f090901100909011709090118090901190909010d0a0901;
0x11a0a09010c0b09011b0b09010b0c09011c0c09010a0d09011d0d0901090e0901;
0x11e0e0901090f09011e0f09010010090101100901021009010310090104100901;
0x105100901061009010710090108100901091009011e1009011f10090120100901;
0x12110090122100901231009012410090125100901261009012710090108110901;
0x11f1109010a1209011d1209010a1309011d1309010a1409011d1409010a150901;
0x11d150901081609011f1609010017090101170901021709010317090104170901;
0x105170901061709010717090108170901091709011e1709011f17090120170901;
0x12117090122170901231709012417090125170901261709012717090109180901;
0x11e180901091909011e1909010a1a09011d1a09010b1b09011c1b09010c1c0901;
0x11b1c09010d1d09011a1d09010e1e09010f1e0901101e0901171e0901181e0901;
0x1191e0901101f0901111f0901161f0901171f0901102009011720090110210901;
0x11721090110220901172209011023090117230901102409011724090110250901;
0x1172509011026090117260901102709011727090110000a0117000a0110010a01;
0x117010a0110020a0117020a0110030a0117030a0110040a0117040a0110050a01;
0x117050a0110060a0117060a0110070a0117070a0110080a0111080a0116080a01;
0x117080a010e090a010f090a0110090a0117090a0118090a0119090a010d0a0a01;
0x11a0a0a010c0b0a011b0b0a010b0c0a011c0c0a010a0d0a011d0d0a01090e0a01;
0x11e0e0a01090f0a011e0f0a0100100a0101100a0102100a0103100a0104100a01;
0x105100a0106100a0107100a0108100a0109100a011e100a011f100a0120100a01;
0x121100a0122100a0123100a0124100a0125100a0126100a0127100a0108110a01;
0x11f110a010b120a011c120a010b130a011c130a010b140a011c140a010b150a01;
0x11c150a0108160a011f160a0100170a0101170a0102170a0103170a0104170a01;
0x105170a0106170a0107170a0108170a0109170a011e170a011f170a0120170a01;
0x121170a0122170a0123170a0124170a0125170a0126170a0127170a0109180a01;
0x11e180a0109190a011e190a010a1a0a011d1a0a010b1b0a011c1b0a010c1c0a01;
0x11b1c0a010d1d0a011a1d0a010e1e0a010f1e0a01101e0a01171e0a01181e0a01;
0x1191e0a01101f0a01111f0a01161f0a01171f0a0110200a0117200a0110210a01;
0x117210a0110220a0117220a0110230a0117230a0110240a0117240a0110250a01;
0x117250a0110260a0117260a0110270a0117270a0110010b0117010b0110030b01;
0x117030b0110050b0117050b0110070b0117070b0111080b0116080b010e090b01;
0x10f090b0110090b0117090b0118090b0119090b010d0a0b011a0a0b010c0b0b01;
0x11b0b0b010b0c0b011c0c0b010a0d0b011d0d0b01090e0b011e0e0b01090f0b01;
0x11e0f0b0101100b0103100b0105100b0107100b0109100b011e100b0120100b01;
0x122100b0124100b0126100b0108110b011f110b010c120b011b120b010c130b01;
0x11b130b010c140b011b140b010c150b011b150b0108160b011f160b0101170b01;
0x103170b0105170b0107170b0109170b011e170b0120170b0122170b0124170b01;
0x126170b0109180b011e180b0109190b011e190b010a1a0b011d1a0b010b1b0b01;
0x11c1b0b010c1c0b011b1c0b010d1d0b011a1d0b010e1e0b010f1e0b01101e0b01;
0x1171e0b01181e0b01191e0b01111f0b01161f0b0110200b0117200b0110220b01;
0x117220b0110240b0117240b0110260b0117260b0111080c0116080c010e090c01;
0x10f090c0110090c0117090c0118090c0119090c010d0a0c011a0a0c010c0b0c01;
0x11b0b0c010b0c0c011c0c0c010a0d0c011d0d0c01090e0c011e0e0c01090f0c01;
0x11e0f0c0109100c011e100c0108110c011f110c010d120c011a120c010d130c01;
0x11a130c010d140c011a140c010d150c011a150c0108160c011f160c0109170c01;
0x11e170c0109180c011e180c0109190c011e190c010a1a0c011d1a0c010b1b0c01;
0x11c1b0c010c1c0c011b1c0c010d1d0c011a1d0c010e1e0c010f1e0c01101e0c01;
0x1171e0c01181e0c01191e0c01111f0c01161f0c0111080d0116080d010e090d01;
0x10f090d0110090d0117090d0118090d0119090d010d0a0d011a0a0d010b0b0d01;
0x10c0b0d011b0b0d011c0b0d010b0c0d011c0c0d010a0d0d011d0d0d01090e0d01;
0x11e0e0d01090f0d011e0f0d0109100d011e100d0108110d011f110d010e120d01;
0x119120d010e130d0119130d010e140d0119140d010e150d0119150d0108160d01;
0x11f160d0109170d011e170d0109180d011e180d0109190d011e190d010a1a0d01;
0x11d1a0d010b1b0d011c1b0d010b1c0d010c1c0d011b1c0d011c1c0d010d1d0d01;
0x11a1d0d010e1e0d010f1e0d01101e0d01171e0d01181e0d01191e0d01111f0d01;
0x1161f0d0111080e0116080e010e090e010f090e0110090e0117090e0118090e01;
0x119090e010a0a0e010b0a0e010c0a0e010d0a0e011a0a0e011b0a0e011c0a0e01;
0x11d0a0e010a0b0e010b0b0e010c0b0e011b0b0e011c0b0e011d0b0e010a0c0e01;
0x10b0c0e010c0c0e011b0c0e011c0c0e011d0c0e010a0d0e011d0d0e01090e0e01;
0x11e0e0e01090f0e011e0f0e0109100e011e100e0108110e011f110e010f120e01;
0x118120e010f130e0118130e010f140e0118140e010f150e0118150e0108160e01;
0x11f160e0109170e011e170e0109180e011e180e0109190e011e190e010a1a0e01;
0x11d1a0e010a1b0e010b1b0e011c1b0e011d1b0e010a1c0e010b1c0e010c1c0e01;
0x11b1c0e011c1c0e011d1c0e010a1d0e010b1d0e010c1d0e010d1d0e011a1d0e01;
0x11b1d0e011c1d0e011d1d0e010e1e0e010f1e0e01101e0e01171e0e01181e0e01;
0x1191e0e01111f0e01161f0e0111080f0112080f0113080f0114080f0115080f01;
0x116080f0109090f010a090f010b090f010c090f010d090f010e090f010f090f01;
0x110090f0117090f0118090f0119090f011a090f011b090f011c090f011d090f01;
0x11e090f01090a0f010a0a0f010b0a0f010c0a0f010d0a0f011a0a0f011b0a0f01;
0x11c0a0f011d0a0f011e0a0f01090b0f010a0b0f010b0b0f010c0b0f010d0b0f01;
0x11a0b0f011b0b0f011c0b0f011d0b0f011e0b0f01090c0f010a0c0f010b0c0f01;
0x10c0c0f010d0c0f011a0c0f011b0c0f011c0c0f011d0c0f011e0c0f01090d0f01;
0x10a0d0f010b0d0f010c0d0f010d0d0f011a0d0f011b0d0f011c0d0f011d0d0f01;
0x11e0d0f01090e0f011e0e0f01090f0f011e0f0f0109100f011e100f0108110f01;
0x11f110f0108120f0110120f0111120f0112120f0113120f0114120f0115120f01;
0x116120f0117120f011f120f0108130f0110130f0111130f0112130f0113130f01;
0x114130f0115130f0116130f0117130f011f130f0108140f0110140f0111140f01;
0x112140f0113140f0114140f0115140f0116140f0117140f011f140f0108150f01;
0x110150f0111150f0112150f0113150f0114150f0115150f0116150f0117150f01;
0x11f150f0108160f011f160f0109170f011e170f0109180f011e180f0109190f01;
0x11e190f01091a0f010a1a0f011d1a0f011e1a0f01091b0f010a1b0f010b1b0f01;
0x10c1b0f010d1b0f011a1b0f011b1b0f011c1b0f011d1b0f011e1b0f01091c0f01;
0x10a1c0f010b1c0f010c1c0f010d1c0f011a1c0f011b1c0f011c1c0f011d1c0f01;
0x11e1c0f01091d0f010a1d0f010b1d0f010c1d0f010d1d0f011a1d0f011b1d0f01;
0x11c1d0f011d1d0f011e1d0f01091e0f010a1e0f010b1e0f010c1e0f010d1e0f01;
0x10e1e0f010f1e0f01101e0f01171e0f01181e0f01191e0f011a1e0f011b1e0f01;
0x11c1e0f011d1e0f011e1e0f01111f0f01121f0f01131f0f01141f0f01151f0f01;
0x1161f0f01090810140a0810140b0810140c0810140d0810141108100112081001;
0x1130810011408100115081001160810011a0810141b0810141c0810141d081014;
0x11e08101408091014090910140a0910140b0910140c0910140d0910140e091001;
0x10f09100110091001110910011209100113091001140910011509100116091001;
0x11709100118091001190910011a0910141b0910141c0910141d0910141e091014;
0x11f091014080a1014090a10140a0a10140b0a10140c0a10140d0a10140e0a1014;
0x10f0a1014100a1014110a1014120a1014130a1014140a1014150a1014160a1014;
0x1170a1014180a1014190a10141a0a10141b0a10141c0a10141d0a10141e0a1014;
0x11f0a1014080b1014090b10140a0b10140b0b10140c0b10140d0b10140e0b1014;
0x10f0b1014100b1014110b1014120b1014130b1014140b1014150b1014160b1014;
0x1170b1014180b1014190b10141a0b10141b0b10141c0b10141d0b10141e0b1014;
0x11f0b1014080c1014090c10140a0c10140b0c10140c0c10140d0c10140e0c1014;
0x10f0c1014100c1014110c1014120c1014130c1014140c1014150c1014160c1014;
0x1170c1014180c1014190c10141a0c10141b0c10141c0c10141d0c10141e0c1014;
0x11f0c1014080d1014090d10140a0d10140b0d10140c0d10140d0d10140e0d1014;
0x10f0d1014100d1014110d1014120d1014130d1014140d1014150d1014160d1014;
0x1170d1014180d1014190d10141a0d10141b0d10141c0d10141d0d10141e0d1014;
0x11f0d1014090e10010a0e10140b0e10140c0e10140d0e10140e0e10140f0e1014;
0x1100e1014110e1014120e1014130e1014140e1014150e1014160e1014170e1014;
0x1180e1014190e10141a0e10141b0e10141c0e10141d0e10141e0e1001090f1001;
0x10a0f10140b0f10140c0f10140d0f10140e0f10140f0f1014100f1014110f1014;
0x1120f1014130f1014140f1014150f1014160f1014170f1014180f1014190f1014;
0x11a0f10141b0f10141c0f10141d0f10141e0f1001091010010a1010140b101014;
0x10c1010140d1010140e1010140f10101410101014111010141210101413101014;
0x11410101415101014161010141710101418101014191010141a1010141b101014;
0x11c1010141d1010141e10100108111001091110010a1110140b1110140c111014;
0x10d1110140e1110140f1110141011101411111014121110141311101414111014;
0x115111014161110141711101418111014191110141a1110141b1110141c111014;
0x11d1110141e1110011f1110010812100109121001111210141212101413121014;
0x11412101415121014161210141e1210011f121001081310010913100111131014;
0x112131014131310141413101415131014161310141e1310011f13100108141001;
0x1091410011114101412141014131410141414101415141014161410141e141001;
0x11f14100108151001091510011115101412151014131510141415101415151014;
0x1161510141e1510011f15100108161001091610010a1610140b1610140c161014;
0x10d1610140e1610140f1610141016101411161014121610141316101414161014;
0x115161014161610141716101418161014191610141a1610141b1610141c161014;
0x11d1610141e1610011f161001091710010a1710140b1710140c1710140d171014;
0x10e1710140f171014101710141117101412171014131710141417101415171014;
0x1161710141717101418171014191710141a1710141b1710141c1710141d171014;
0x11e171001091810010a1810140b1810140c1810140d1810140e1810140f181014;
0x11018101411181014121810141318101414181014151810141618101417181014;
0x118181014191810141a1810141b1810141c1810141d1810141e18100109191001;
0x10a1910140b1910140c1910140d1910140e1910140f1910141019101411191014;
0x11219101413191014141910141519101416191014171910141819101419191014;
0x11a1910141b1910141c1910141d1910141e191001081a1014091a10140a1a1014;
0x10b1a10140c1a10140d1a10140e1a10140f1a1014101a1014111a1014121a1014;
0x1131a1014141a1014151a1014161a1014171a1014181a1014191a10141a1a1014;
0x11b1a10141c1a10141d1a10141e1a10141f1a1014081b1014091b10140a1b1014;
0x10b1b10140c1b10140d1b10140e1b10140f1b1014101b1014111b1014121b1014;
0x1131b1014141b1014151b1014161b1014171b1014181b1014191b10141a1b1014;
0x11b1b10141c1b10141d1b10141e1b10141f1b1014081c1014091c10140a1c1014;
0x10b1c10140c1c10140d1c10140e1c10140f1c1014101c1014111c1014121c1014;
0x1131c1014141c1014151c1014161c1014171c1014181c1014191c10141a1c1014;
0x11b1c10141c1c10141d1c10141e1c10141f1c1014081d1014091d10140a1d1014;
0x10b1d10140c1d10140d1d10140e1d10140f1d1014101d1014111d1014121d1014;
0x1131d1014141d1014151d1014161d1014171d1014181d1014191d10141a1d1014;
0x11b1d10141c1d10141d1d10141e1d10141f1d1014081e1014091e10140a1e1014;
0x10b1e10140c1e10140d1e10140e1e10010f1e1001101e1001111e1001121e1001;
0x1131e1001141e1001151e1001161e1001171e1001181e1001191e10011a1e1014;
0x11b1e10141c1e10141d1e10141e1e10141f1e1014091f10140a1f10140b1f1014;
0x10c1f10140d1f1014111f1001121f1001131f1001141f1001151f1001161f1001;
0x11a1f10141b1f10141c1f10141d1f10141e1f1014090811140a0811140b081114;
0x10c0811140d0811141a0811141b0811141c0811141d0811141e08111408091114;
0x10e0911140f091114100911141109111412091114130911141409111415091114;
0x1160911141709111418091114190911141f091114080a11141f0a1114080b1114;
0x11f0b1114080c11141f0c1114080d1114120d1101130d1101140d1101150d1101;
0x11f0d1114090e1114120e1101130e1101140e1101150e11011e0e1114090f1114;
0x1120f1101130f1101140f1101150f11011e0f1114091011141e10111409111114;
0x11e111114091211141e121114091311141e131114091411141e14111409151114;
0x11e151114091611141e161114091711141e171114091811141218110113181101;
0x114181101151811011e1811140919111412191101131911011419110115191101;
0x11e191114081a1114121a1101131a1101141a1101151a11011f1a1114081b1114;
0x11f1b1114081c11141f1c1114081d11141f1d1114081e11140e1e11140f1e1114;
0x1101e1114111e1114121e1114131e1114141e1114151e1114161e1114171e1114;
0x1181e1114191e11141f1e1114091f11140a1f11140b1f11140c1f11140d1f1114;
0x11a1f11141b1f11141c1f11141d1f11141e1f1114090812140a0812140b081214;
0x10c0812140d0812141a0812141b0812141c0812141d0812141e08121408091214;
0x10e0912140f091214100912141109121412091214130912141409121415091214;
0x1160912141709121418091214190912141f091214080a12141f0a1214080b1214;
0x11f0b1214080c12141f0c1214080d1214120d1201130d1201140d1201150d1201;
0x11f0d1214090e1214120e1201130e1201140e1201150e12011e0e1214090f1214;
0x1120f1201130f1201140f1201150f12011e0f1214091012141e10121409111214;
0x11e111214091212141e121214091312141e131214091412141e14121409151214;
0x11e151214091612141e161214091712141e171214091812141218120113181201;
0x114181201151812011e1812140919121412191201131912011419120115191201;
0x11e191214081a1214121a1201131a1201141a1201151a12011f1a1214081b1214;
0x11f1b1214081c12141f1c1214081d12141f1d1214081e12140e1e12140f1e1214;
0x1101e1214111e1214121e1214131e1214141e1214151e1214161e1214171e1214;
0x1181e1214191e12141f1e1214091f12140a1f12140b1f12140c1f12140d1f1214;
0x11a1f12141b1f12141c1f12141d1f12141e1f12140a0813140c0813141b081314;
0x11d0813140f0913141109131413091314150913141709131419091314080a1314;
0x11f0a1314080c13141f0c1314120d1301130d1301140d1301150d1301090e1314;
0x1120e1301130e1301140e1301150e1301120f1301130f1301140f1301150f1301;
0x11e0f1314091013141e111314091213141e131314091413141e15131409161314;
0x11e17131409181314121813011318130114181301151813011219130113191301;
0x114191301151913011e191314121a1301131a1301141a1301151a1301081b1314;
0x11f1b1314081d13141f1d13140e1e1314101e1314121e1314141e1314161e1314;
0x1181e13140a1f13140c1f13141b1f13141d1f1314120d1401130d1401140d1401;
0x1150d1401120e1401130e1401140e1401150e1401120f1401130f1401140f1401;
0x1150f140112181401131814011418140115181401121914011319140114191401;
0x115191401121a1401131a1401141a1401151a1401524742410004000000000000;
0x100000000847e87ff847e87ff847e87ff847e87ff847e87ff847e87ff847e87ff;
0x1847e87ff847e87ff847e87ff847e87ff847e87ff847e87ff847e87ff847e87ff;
0x1847e87ff847e87ff847e87ff847e87ffa4a0a6ffa4a0a6ffa4a0a6ffa4a0a6ff;
0x1a4a0a6ffa4a0a6ffa4a0a6ffa4a0a6ffa4a0a6ffa4a0a6ffa4a0a6ffa4a0a6ff;
0x1a4a0a6ff847e87ff847e87ff847e87ff847e87ff847e87ff847e87ff847e87ff;
0x1847e87ff847e87ff847e87ff847e87ff847e87ff847e87ff847e87ff847e87ff;
0x1847e87ff847e87ff847e87ff847e87ff847e87ff847e87ff847e87ff847e87ff;
0x1847e87ff847e87ff847e87ff847e87ff847e87ff847e87ff847e87ff847e87ff;
0x1847e87ff847e87ff847e87ff847e87ff847e87ff847e87ff847e87ff847e87ff;
0x1847e87ff847e87ff847e87ff847e87ff847e87ff847e87ff847e87ff847e87ff;
0x1847e87ff847e87ff847e87ff847e87ff847e87ff847e87ff847e87ff847e87ff;
0x1847e87ff847e87ff847e87ff847e87ff847e87ff847e87ff847e87ff847e87ff;
0x1847e87ff847e87ff847e87ff847e87ff847e87ff847e87ff847e87ff847e87ff;
0x1847e87ff847e87ff847e87ff847e87ff847e87ff847e87ff847e87ff847e87ff;
0x1847e87ff847e87ff847e87ff847e87ff847e87ff847e87ff847e87ff847e87ff;
0x1847e87ff847e87ff847e87ff847e87ff847e87ff847e87ff847e87ff847e87ff;
0x1847e87ff847e87ff847e87ff847e87ff847e87ff847e87ff847e87ff847e87ff;
0x1847e87ff847e87ff847e87ff847e87ff847e87ff847e87ff847e87ff847e87ff;
0x1847e87ff847e87ff847e87ff847e87ff847e87ff847e87ff847e87ff847e87ff;
0x1847e87ff847e87ff847e87ff847e87ff847e87ff847e87ff847e87ff847e87ff;
0x1847e87ff847e87ff847e87ff847e87ff847e87ff847e87ff847e87ff847e87ff;
0x1847e87ff847e87ff847e87ff847e87ff847e87ff847e87ff847e87ff847e87ff;
0x1847e87ff847e87ff847e87ff847e87ff847e87ff847e87ff847e87ff847e87ff;
0x1847e87ff847e87ff847e87ff847e87ff847e87ff847e87ff847e87ff847e87ff;
0x1847e87ff847e87ff847e87ff847e87ff00000000000000000000000000000000;
0x10000000000000000000000000000000000000000000000000000000000000000;
0x10000000000000000000000000000000000000000000000000000000000000000;
0x10000000000000000000000000000000000000000000000000000000000000000;
0x10000000000000000000000000000000000000000000000000000000000000000;
0x10000000000000000000000000000000000000000000000000000000000000000;
0x10000000000000000000000000000000000000000000000000000000000000000;
0x10000000000000000000000000000000000000000000000000000000000000000].
(** redeclipse/prefabs/castle/castle_small_deis.vox (1416 bytes) *)
Definition vox_castle_castle_small_deis : list Z := [
0x1564f5820960000004d41494e000000007405000053495a450c00000000000000;
0x108000000080000000200000058595a4944010000000000005000000000000001;
0x10100000102000001030000010400000105000001060000010700000100010001;
0x10101000102010001030100010401000105010001060100010701000100020001;
0x10102000102020001030200010402000105020001060200010702000100030001;
0x10103000102030001030300010403000105030001060300010703000100040001;
0x10104000102040001030400010404000105040001060400010704000100050001;
0x10105000102050001030500010405000105050001060500010705000100060001;
0x10106000102060001030600010406000105060001060600010706000100070001;
0x10107000102070001030700010407000105070001060700010707000102020101;
0x10302010104020101050201010203010103030101040301010503010102040101;
0x10304010104040101050401010205010103050101040501010505010152474241;
0x1000400000000000000000000847e87ff847e87ff847e87ff847e87ff847e87ff;
0x1847e87ff847e87ff847e87ff847e87ff847e87ff847e87ff847e87ff847e87ff;
0x1847e87ff847e87ff847e87ff847e87ff847e87ff847e87ff847e87ff847e87ff;
0x1847e87ff847e87ff847e87ff847e87ff847e87ff847e87ff847e87ff847e87ff;
0x1847e87ff847e87ff847e87ff847e87ff847e87ff847e87ff847e87ff847e87ff;
0x1847e87ff847e87ff847e87ff847e87ff847e87ff847e87ff847e87ff847e87ff;
0x1847e87ff847e87ff847e87ff847e87ff847e87ff847e87ff847e87ff847e87ff;
0x1847e87ff847e87ff847e87ff847e87ff847e87ff847e87ff847e87ff847e87ff;
0x1847e87ff847e87ff847e87ff847e87ff847e87ff847e87ff847e87ff847e87ff;
0x1847e87ff847e87ff847e87ff847e87ff847e87ff847e87ff847e87ff847e87ff;
0x1847e87ff847e87ff000000000000000000000000000000000000000000000000;
0x10000000000000000000000000000000000000000000000000000000000000000;
0x10000000000000000000000000000000000000000000000000000000000000000;
0x10000000000000000000000000000000000000000000000000000000000000000;
0x10000000000000000000000000000000000000000000000000000000000000000;
0x10000000000000000000000000000000000000000000000000000000000000000;
0x10000000000000000000000000000000000000000000000000000000000000000;
0x10000000000000000000000000000000000000000000000000000000000000000;
0x10000000000000000000000000000000000000000000000000000000000000000;
0x10000000000000000000000000000000000000000000000000000000000000000;
0x10000000000000000000000000000000000000000000000000000000000000000;
0x10000000000000000000000000000000000000000000000000000000000000000;
0x10000000000000000000000000000000000000000000000000000000000000000;
0x10000000000000000000000000000000000000000000000000000000000000000;
0x10000000000000000000000000000000000000000000000000000000000000000;
0x10000000000000000000000000000000000000000000000000000000000000000;
0x10000000000000000000000000000000000000000000000000000000000000000;
0x10000000000000000000000000000000000000000000000000000000000000000;
0x10000000000000000000000000000000000000000000000000000000000000000;
0x10000000000000000000000000000000000000000000000000000000000000000;
0x10000000000000000000000000000000000000000000000000000000000000000;
0x10000000000000000000000000000000000000000000000000000000000000000;
0x10000000000000000].
(** redeclipse/prefabs/castle/castle_wall_corner.vox (1512 bytes) *)
Definition vox_castle_castle_wall_corner : list Z := [
0x1564f5820960000004d41494e00000000d405000053495a450c00000000000000;
0x108000000080000000400000058595a49a4010000000000006800000000000001;
0x10100000102000001030000010400003c05000001060000010700000100010001;
0x1010100010201003c0301000104010001050100010601003c0701000100020001;
0x1010200010202003c0302003c0402003c05020001060200010702000100030001;
0x1010300010203003c0303003c0403003c0503000106030001070300010004003c;
0x1010400010204003c0304003c0404003c0504003c060400010704000100050001;
0x1010500010205003c0305003c0405003c05050001060500010705000100060001;
0x10106000102060001030600010406000105060001060600010706000100070001;
0x1010700010207000103070001040700010507000106070001070700010700013c;
0x107010101070201010703013c07040101070501010706013c0007010101070101;
0x10207013c03070101040701010507013c06070101070701010700023c07010201;
0x10702023c070302010704023c07050201070602010007023c0107023c0207023c;
0x1030702010407023c0507023c0607023c07070201070003010702030107040301;
0x10705033c0706033c010703010307033c050703010607033c0707030152474241;
0x1000400000000000000000000847e87ff847e87ff847e87ff847e87ff847e87ff;
0x1847e87ff847e87ff847e87ff847e87ff847e87ff847e87ff847e87ff847e87ff;
0x1847e87ff847e87ff847e87ff847e87ff847e87ff847e87ff847e87ff847e87ff;
0x1847e87ff847e87ff847e87ff847e87ff847e87ff847e87ff847e87ff847e87ff;
0x1847e87ff847e87ff847e87ff847e87ff847e87ff847e87ff847e87ff847e87ff;
0x1847e87ff847e87ff847e87ff847e87ff847e87ff847e87ff847e87ff847e87ff;
0x1847e87ff847e87ff847e87ff847e87ff847e87ff847e87ff847e87ff847e87ff;
0x1847e87ff847e87ff847e87ff847e87ff847e87ff847e87ff9badb7ff9badb7ff;
0x19badb7ff9badb7ff9badb7ff9badb7ff9badb7ff9badb7ff9badb7ff9badb7ff;
0x19badb7ff9badb7ff9badb7ff9badb7ff9badb7ff9badb7ff9badb7ff9badb7ff;
0x19badb7ff9badb7ff9badb7ff9badb7ff9badb7ff9badb7ff9badb7ff9badb7ff;
0x19badb7ff9badb7ff9badb7ff9badb7ff9badb7ff9badb7ff9badb7ff9badb7ff;
0x1847e87ff847e87ff847e87ff0000000000000000000000000000000000000000;
0x10000000000000000000000000000000000000000000000000000000000000000;
0x10000000000000000000000000000000000000000000000000000000000000000;
0x10000000000000000000000000000000000000000000000000000000000000000;
0x10000000000000000000000000000000000000000000000000000000000000000;
0x10000000000000000000000000000000000000000000000000000000000000000;
0x10000000000000000000000000000000000000000000000000000000000000000;
0x10000000000000000000000000000000000000000000000000000000000000000;
0x10000000000000000000000000000000000000000000000000000000000000000;
0x10000000000000000000000000000000000000000000000000000000000000000;
0x10000000000000000000000000000000000000000000000000000000000000000;
0x10000000000000000000000000000000000000000000000000000000000000000;
0x10000000000000000000000000000000000000000000000000000000000000000;
0x10000000000000000000000000000000000000000000000000000000000000000;
0x10000000000000000000000000000000000000000000000000000000000000000;
0x10000000000000000000000000000000000000000000000000000000000000000;
0x10000000000000000000000000000000000000000000000000000000000000000;
0x10000000000000000000000000000000000000000000000000000000000000000;
0x10000000000000000000000000000000000000000000000000000000000000000;
0x10000000000000000000000000000000000000000000000000000000000000000;
0x10000000000000000].
(** redeclipse/prefabs/castle/castle_wall_end_cliff.vox (4140 bytes) *)
Definition vox_castle_castle_wall_end_cliff : list Z := [
0x1564f5820960000004d41494e000000001810000053495a450c00000000000000;
0x110000000080000000c00000058595a49e80b000000000000f902000000000001;
0x10100000102000001030000010400000105000001060000010001000101010001;
0x10201000103010001040100010501000106010001000200010102000102020001;
0x10302000104020001050200010602000100030001010300010203000103030001;
0x10403000105030001000400010104000102040001030400010404000105040001;
0x10005000101050001020500010305000104050001050500010006000101060001;
0x10206000103060001040600010506000100070001010700010207000103070001;
0x10407000105070001000001010100010102000101030001010400010105000101;
0x10600010107000101000101010101010102010101030101010401010105010101;
0x10601010107010101000201010102010102020101030201010402010105020101;
0x10602010100030101010301010203010103030101040301010503010106030101;
0x10004010101040101020401010304010104040101050401010604010100050101;
0x10105010102050101030501010405010105050101060501010006010101060101;
0x10206010103060101040601010506010106060101000701010107010102070101;
0x10307010104070101050701010607010100000201010002010200020103000201;
0x10400020105000201060002010700020108000201000102010101020102010201;
0x10301020104010201050102010601020107010201000202010102020102020201;
0x10302020104020201050202010602020107020201000302010103020102030201;
0x10303020104030201050302010603020107030201000402010104020102040201;
0x10304020104040201050402010604020107040201000502010105020102050201;
0x10305020104050201050502010605020107050201000602010106020102060201;
0x10306020104060201050602010606020100070201010702010207020103070201;
0x10407020105070201060702010000030101000301020003010300030104000301;
0x10500030106000301070003010800030100010301010103010201030103010301;
0x10401030105010301060103010701030108010301000203010102030102020301;
0x10302030104020301050203010602030107020301080203010003030101030301;
0x10203030103030301040303010503030106030301070303010004030101040301;
0x10204030103040301040403010504030106040301070403010005030101050301;
0x10205030103050301040503010505030106050301070503010006030101060301;
0x10206030103060301040603010506030106060301070603010007030101070301;
0x10207030103070301040703010507030106070301070703010000040101000401;
0x10200040103000401040004010500040106000401070004010800040109000401;
0x10001040101010401020104010301040104010401050104010601040107010401;
0x10801040109010401000204010102040102020401030204010402040105020401;
0x10602040107020401080204010003040101030401020304010303040104030401;
0x10503040106030401070304010803040100040401010404010204040103040401;
0x10404040105040401060404010704040108040401000504010105040102050401;
0x10305040104050401050504010605040107050401080504010905040100060401;
0x10106040102060401030604010406040105060401060604010706040108060401;
0x10906040100070401010704010207040103070401040704010507040106070401;
0x10707040108070401090704010000050101000501020005010300050104000501;
0x10500050106000501070005010800050109000501000105010101050102010501;
0x1030105010401050105010501060105010701050108010501090105010a010501;
0x10002050101020501020205010302050104020501050205010602050107020501;
0x108020501090205010a0205010003050101030501020305010303050104030501;
0x105030501060305010703050108030501090305010a0305010004050101040501;
0x10204050103040501040405010504050106040501070405010804050109040501;
0x10a04050100050501010505010205050103050501040505010505050106050501;
0x10705050108050501090505010a05050100060501010605010206050103060501;
0x10406050105060501060605010706050108060501090605010a0605010b060501;
0x10007050101070501020705010307050104070501050705010607050107070501;
0x108070501090705010a0705010b07050100000601010006010200060103000601;
0x10400060105000601060006010700060108000601090006010a00060100010601;
0x10101060102010601030106010401060105010601060106010701060108010601;
0x1090106010a0106010b0106010002060101020601020206010302060104020601;
0x105020601060206010702060108020601090206010a0206010b02060100030601;
0x10103060102030601030306010403060105030601060306010703060108030601;
0x1090306010a030601000406010104060102040601030406010404060105040601;
0x1060406010704060108040601090406010a040601000506010105060102050601;
0x1030506010405060105050601060506010705060108050601090506010a050601;
0x10006060101060601020606010306060104060601050606010606060107060601;
0x108060601090606010a0606010b0606010c060601000706010107060102070601;
0x1030706010407060105070601060706010707060108070601090706010a070601;
0x10b0706010c070601000007010100070102000701030007010400070105000701;
0x1060007010700070108000701090007010a000701000107010101070102010701;
0x1030107010401070105010701060107010701070108010701090107010a010701;
0x10b0107010c010701000207010102070102020701030207010402070105020701;
0x1060207010702070108020701090207010a0207010b0207010c0207010d020701;
0x10003070101030701020307010303070104030701050307010603070107030701;
0x108030701090307010a0307010004070101040701020407010304070104040701;
0x105040701060407010704070108040701090407010a0407010005070101050701;
0x10205070103050701040507010505070106050701070507010805070109050701;
0x10a0507010d050701000607010106070102060701030607010406070105060701;
0x1060607010706070108060701090607010a0607010b0607010c0607010d060701;
0x10007070101070701020707010307070104070701050707010607070107070701;
0x108070701090707010a0707010b0707010c070701000008010100080102000801;
0x1030008010400080105000801060008010700080108000801090008010a000801;
0x10b00080100010801010108010201080103010801040108010501080106010801;
0x10701080108010801090108010a0108010b0108010c0108010d0108010e010801;
0x10f01080100020801010208010202080103020801040208010502080106020801;
0x10702080108020801090208010a0208010d0208010e0208010f02080100030801;
0x10103080102030801030308010403080105030801060308010703080108030801;
0x1090308010a0308010e0308010f03080100040801010408010204080103040801;
0x10404080105040801060408010704080108040801090408010a0408010d040801;
0x10005080101050801020508010305080104050801050508010605080107050801;
0x108050801090508010a0508010b0508010c050801000608010106080102060801;
0x1030608010406080105060801060608010706080108060801090608010a060801;
0x10b0608010c0608010d0608010007080101070801020708010307080104070801;
0x10507080106070801070708010807080109070801000009010100090102000901;
0x1030009010400090105000901060009010700090108000901090009010a000901;
0x10b00090100070901010709010207090103070901040709010507090106070901;
0x107070901080709010907090100000a0101000a0102000a0103000a0104000a01;
0x105000a0106000a0107000a0108000a0109000a010a000a010b000a010c000a01;
0x10d000a010e000a010f000a0100070a0101070a0102070a0103070a0104070a01;
0x105070a0106070a0107070a0108070a0101000b0103000b0105000b0107000b01;
0x109000b010b000b010d000b010f000b0101070b0103070b0105070b0107070b01;
0x152474241000400000000000000000000847e87ff847e87ff847e87ff847e87ff;
0x1847e87ff847e87ff847e87ff847e87ff847e87ff847e87ff847e87ff847e87ff;
0x1847e87ff847e87ff847e87ff847e87ff847e87ff847e87ff847e87ff847e87ff;
0x1847e87ff847e87ff847e87ff847e87ff847e87ff847e87ff847e87ff847e87ff;
0x1847e87ff847e87ff847e87ff847e87ff847e87ff847e87ff847e87ff847e87ff;
0x1847e87ff847e87ff847e87ff847e87ff847e87ff847e87ff847e87ff847e87ff;
0x1847e87ff847e87ff847e87ff847e87ff847e87ff847e87ff847e87ff847e87ff;
0x1847e87ff847e87ff847e87ff847e87ff847e87ff847e87ff847e87ff847e87ff;
0x1847e87ff847e87ff847e87ff847e87ff847e87ff847e87ff847e87ff847e87ff;
0x1847e87ff847e87ff847e87ff847e87ff847e87ff847e87ff847e87ff847e87ff;
0x1847e87ff847e87ff847e87ff847e87ff847e87ff847e87ff847e87ff847e87ff;
0x1847e87ff847e87ff847e87ff847e87ff847e87ff847e87ff847e87ff847e87ff;
0x1847e87ff847e87ff847e87ff847e87ff847e87ff847e87ff847e87ff847e87ff;
0x1847e87ff847e87ff847e87ff847e87ff847e87ff847e87ff847e87ff847e87ff;
0x1847e87ff847e87ff847e87ff847e87ff847e87ff847e87ff847e87ff847e87ff;
0x1847e87ff847e87ff847e87ff847e87ff847e87ff847e87ff847e87ff847e87ff;
0x1847e87ff847e87ff847e87ff847e87ff847e87ff847e87ff847e87ff847e87ff;
0x1847e87ff847e87ff847e87ff847e87ff847e87ff847e87ff847e87ff847e87ff;
0x1847e87ff847e87ff847e87ff847e87ff847e87ff847e87ff847e87ff847e87ff;
0x1847e87ff847e87ff847e87ff847e87ff847e87ff847e87ff847e87ff847e87ff;
0x1847e87ff847e87ff847e87ff847e87ff847e87ff847e87ff847e87ff847e87ff;
0x1847e87ff847e87ff847e87ff847e87ff847e87ff847e87ff847e87ff847e87ff;
0x1847e87ff847e87ff847e87ff847e87ff847e87ff847e87ff847e87ff847e87ff;
0x10000000000000000000000000000000000000000000000000000000000000000;
0x10000000000000000000000000000000000000000000000000000000000000000;
0x10000000000000000000000000000000000000000000000000000000000000000;
0x10000000000000000000000000000000000000000000000000000000000000000;
0x10000000000000000000000000000000000000000000000000000000000000000;
0x10000000000000000000000000000000000000000000000000000000000000000;
0x10000000000000000000000000000000000000000000000000000000000000000;
0x10000000000000000000000000000000000000000000000000000000000000000;
0x10000000000000000000000000000000000000000000000000000000000000000;
0x1000000000000000000000000].
(** redeclipse/prefabs/castle/castle_wall_end_cliff_oneway.vox (5768 bytes) *)
Definition vox_castle_castle_wall_end_cliff_oneway : list Z := [
0x1564f5820960000004d41494e000000007416000053495a450c00000000000000;
0x118000000080000001400000058595a4944120000000000009004000016000001;
0x11700000116010001170100011602000117020001160300011703000116040001;
0x11704000114050001150500011605000117050001160600011706000116070001;
0x11707000115000101160001011700010115010101160101011701010115020101;
0x11602010117020101140301011503010116030101170301011404010115040101;
0x11604010117040101140501011505010116050101170501011606010117060101;
0x11607010117070101150002011600020117000201150102011601020117010201;
0x11502020116020201170202011403020115030201160302011703020114040201;
0x11504020116040201170402011405020115050201160502011705020114060201;
0x11506020116060201170602011407020115070201160702011707020115000301;
0x11600030117000301150103011601030117010301150203011602030117020301;
0x11403030115030301160303011703030114040301150403011604030117040301;
0x11405030115050301160503011705030114060301150603011606030117060301;
0x11407030115070301160703011707030115000401160004011700040115010401;
0x11601040117010401150204011602040117020401140304011503040116030401;
0x11703040113040401140404011504040116040401170404011205040113050401;
0x11405040115050401160504011705040111060401120604011306040114060401;
0x11506040116060401170604011207040113070401140704011507040116070401;
0x11707040114000501150005011600050117000501140105011501050116010501;
0x11701050114020501150205011602050117020501130305011403050115030501;
0x11603050117030501120405011304050114040501150405011604050117040501;
0x11105050112050501130505011405050115050501160505011705050111060501;
0x11206050113060501140605011506050116060501170605011107050112070501;
0x11307050114070501150705011607050117070501120006011300060114000601;
0x11500060116000601170006011301060114010601150106011601060117010601;
0x11202060113020601140206011502060116020601170206011103060112030601;
0x11303060114030601150306011603060117030601100406011104060112040601;
0x11304060114040601150406011604060117040601100506011105060112050601;
0x11305060114050601150506011605060117050601100606011106060112060601;
0x11306060114060601150606011606060117060601100706011107060112070601;
0x11307060114070601150706011607060117070601100007011100070112000701;
0x11300070114000701150007011600070117000701100107011101070112010701;
0x11301070114010701150107011601070117010701100207011102070112020701;
0x11302070114020701150207011602070117020701100307011103070112030701;
0x11303070114030701150307011603070117030701100407011104070112040701;
0x11304070114040701150407011604070117040701100507011105070112050701;
0x11305070114050701150507011605070117050701100607011106070112060701;
0x11306070114060701150607011606070117060701100707011107070112070701;
0x11307070114070701150707011607070117070701000008010100080102000801;
0x10300080104000801050008010600080110000801110008011200080113000801;
0x11400080115000801160008011700080100010801010108010201080103010801;
0x10401080105010801060108011001080111010801120108011301080114010801;
0x11501080116010801170108010002080101020801020208010302080104020801;
0x10502080106020801100208011102080112020801130208011402080115020801;
0x11602080117020801000308010103080102030801030308010403080105030801;
0x11003080111030801120308011303080114030801150308011603080117030801;
0x10004080101040801020408010304080104040801050408011004080111040801;
0x11204080113040801140408011504080116040801170408010005080101050801;
0x10205080103050801040508010505080110050801110508011205080113050801;
0x11405080115050801160508011705080100060801010608010206080103060801;
0x10406080105060801100608011106080112060801130608011406080115060801;
0x11606080117060801000708010107080102070801030708010407080105070801;
0x11007080111070801120708011307080114070801150708011607080117070801;
0x10000090101000901020009010300090104000901050009010600090107000901;
0x11000090111000901120009011300090114000901150009011600090117000901;
0x10001090101010901020109010301090104010901050109010601090107010901;
0x10002090101020901020209010302090104020901050209010602090100030901;
0x10103090102030901030309010403090105030901060309010004090101040901;
0x10204090103040901040409010504090106040901000509010105090102050901;
0x10305090104050901050509010605090100060901010609010206090103060901;
0x10406090105060901060609010007090101070901020709010307090104070901;
0x10507090106070901100709011107090112070901130709011407090115070901;
0x1160709011707090100000a0101000a0102000a0103000a0104000a0105000a01;
0x106000a0107000a0108000a0110000a0111000a0112000a0113000a0114000a01;
0x115000a0116000a0117000a0100010a0101010a0102010a0103010a0104010a01;
0x105010a0106010a0107010a0100020a0101020a0102020a0103020a0104020a01;
0x105020a0106020a0107020a0100030a0101030a0102030a0103030a0104030a01;
0x105030a0106030a0107030a0100040a0101040a0102040a0103040a0104040a01;
0x105040a0106040a0107040a0100050a0101050a0102050a0103050a0104050a01;
0x105050a0106050a0107050a0100060a0101060a0102060a0103060a0104060a01;
0x105060a0106060a0111060a0100070a0101070a0102070a0103070a0104070a01;
0x105070a0106070a0110070a0111070a0112070a0113070a0114070a0115070a01;
0x116070a0117070a0100000b0101000b0102000b0103000b0104000b0105000b01;
0x106000b0107000b0108000b0111000b0113000b0115000b0117000b0100010b01;
0x101010b0102010b0103010b0104010b0105010b0106010b0107010b0108010b01;
0x100020b0101020b0102020b0103020b0104020b0105020b0106020b0107020b01;
0x108020b0100030b0101030b0102030b0103030b0104030b0105030b0106030b01;
0x107030b0100040b0101040b0102040b0103040b0104040b0105040b0106040b01;
0x107040b0100050b0101050b0102050b0103050b0104050b0105050b0106050b01;
0x107050b0100060b0101060b0102060b0103060b0104060b0105060b0106060b01;
0x107060b0100070b0101070b0102070b0103070b0104070b0105070b0106070b01;
0x107070b0111070b0113070b0115070b0117070b0100000c0101000c0102000c01;
0x103000c0104000c0105000c0106000c0107000c0108000c0109000c0100010c01;
0x101010c0102010c0103010c0104010c0105010c0106010c0107010c0108010c01;
0x109010c0100020c0101020c0102020c0103020c0104020c0105020c0106020c01;
0x107020c0108020c0100030c0101030c0102030c0103030c0104030c0105030c01;
0x106030c0107030c0108030c0100040c0101040c0102040c0103040c0104040c01;
0x105040c0106040c0107040c0108040c0100050c0101050c0102050c0103050c01;
0x104050c0105050c0106050c0107050c0108050c0109050c0100060c0101060c01;
0x102060c0103060c0104060c0105060c0106060c0107060c0108060c0109060c01;
0x100070c0101070c0102070c0103070c0104070c0105070c0106070c0107070c01;
0x108070c0109070c0100000d0101000d0102000d0103000d0104000d0105000d01;
0x106000d0107000d0108000d0109000d0100010d0101010d0102010d0103010d01;
0x104010d0105010d0106010d0107010d0108010d0109010d010a010d0100020d01;
0x101020d0102020d0103020d0104020d0105020d0106020d0107020d0108020d01;
0x109020d010a020d0100030d0101030d0102030d0103030d0104030d0105030d01;
0x106030d0107030d0108030d0109030d010a030d0100040d0101040d0102040d01;
0x103040d0104040d0105040d0106040d0107040d0108040d0109040d010a040d01;
0x100050d0101050d0102050d0103050d0104050d0105050d0106050d0107050d01;
0x108050d0109050d010a050d0100060d0101060d0102060d0103060d0104060d01;
0x105060d0106060d0107060d0108060d0109060d010a060d010b060d0100070d01;
0x101070d0102070d0103070d0104070d0105070d0106070d0107070d0108070d01;
0x109070d010a070d010b070d0100000e0101000e0102000e0103000e0104000e01;
0x105000e0106000e0107000e0108000e0109000e010a000e0100010e0101010e01;
0x102010e0103010e0104010e0105010e0106010e0107010e0108010e0109010e01;
0x10a010e010b010e0100020e0101020e0102020e0103020e0104020e0105020e01;
0x106020e0107020e0108020e0109020e010a020e010b020e0100030e0101030e01;
0x102030e0103030e0104030e0105030e0106030e0107030e0108030e0109030e01;
0x10a030e0100040e0101040e0102040e0103040e0104040e0105040e0106040e01;
0x107040e0108040e0109040e010a040e0100050e0101050e0102050e0103050e01;
0x104050e0105050e0106050e0107050e0108050e0109050e010a050e0100060e01;
0x101060e0102060e0103060e0104060e0105060e0106060e0107060e0108060e01;
0x109060e010a060e010b060e010c060e0100070e0101070e0102070e0103070e01;
0x104070e0105070e0106070e0107070e0108070e0109070e010a070e010b070e01;
0x10c070e0100000f0101000f0102000f0103000f0104000f0105000f0106000f01;
0x107000f0108000f0109000f010a000f0100010f0101010f0102010f0103010f01;
0x104010f0105010f0106010f0107010f0108010f0109010f010a010f010b010f01;
0x10c010f0100020f0101020f0102020f0103020f0104020f0105020f0106020f01;
0x107020f0108020f0109020f010a020f010b020f010c020f010d020f0100030f01;
0x101030f0102030f0103030f0104030f0105030f0106030f0107030f0108030f01;
0x109030f010a030f0100040f0101040f0102040f0103040f0104040f0105040f01;
0x106040f0107040f0108040f0109040f010a040f0100050f0101050f0102050f01;
0x103050f0104050f0105050f0106050f0107050f0108050f0109050f010a050f01;
0x10d050f0100060f0101060f0102060f0103060f0104060f0105060f0106060f01;
0x107060f0108060f0109060f010a060f010b060f010c060f010d060f0100070f01;
0x101070f0102070f0103070f0104070f0105070f0106070f0107070f0108070f01;
0x109070f010a070f010b070f010c070f0100001001010010010200100103001001;
0x10400100105001001060010010700100108001001090010010a0010010b001001;
0x10001100101011001020110010301100104011001050110010601100107011001;
0x108011001090110010a0110010b0110010c0110010d0110010e0110010f011001;
0x10002100101021001020210010302100104021001050210010602100107021001;
0x108021001090210010a0210010d0210010e0210010f0210010003100101031001;
0x10203100103031001040310010503100106031001070310010803100109031001;
0x10a0310010e0310010f0310010004100101041001020410010304100104041001;
0x105041001060410010704100108041001090410010a0410010d04100100051001;
0x10105100102051001030510010405100105051001060510010705100108051001;
0x1090510010a0510010b0510010c05100100061001010610010206100103061001;
0x10406100105061001060610010706100108061001090610010a0610010b061001;
0x10c0610010d061001000710010107100102071001030710010407100105071001;
0x10607100107071001080710010907100100001101010011010200110103001101;
0x10400110105001101060011010700110108001101090011010a0011010b001101;
0x10007110101071101020711010307110104071101050711010607110107071101;
0x10807110109071101000012010100120102001201030012010400120105001201;
0x1060012010700120108001201090012010a0012010b0012010c0012010d001201;
0x10e0012010f001201000712010107120102071201030712010407120105071201;
0x10607120107071201080712010100130103001301050013010700130109001301;
0x10b0013010d0013010f0013010107130103071301050713010707130152474241;
0x1000400000000000000000000847e87ff847e87ff847e87ff847e87ff847e87ff;
0x1847e87ff847e87ff847e87ff847e87ff847e87ff847e87ff847e87ff847e87ff;
0x1847e87ff847e87ff847e87ff847e87ff847e87ff847e87ff847e87ff847e87ff;
0x1847e87ff847e87ff847e87ff847e87ff847e87ff847e87ff847e87ff847e87ff;
0x1847e87ff847e87ff847e87ff847e87ff847e87ff847e87ff847e87ff847e87ff;
0x1847e87ff847e87ff847e87ff847e87ff847e87ff847e87ff847e87ff847e87ff;
0x1847e87ff847e87ff847e87ff847e87ff847e87ff847e87ff847e87ff847e87ff;
0x1847e87ff847e87ff847e87ff847e87ff847e87ff847e87ff847e87ff847e87ff;
0x1847e87ff847e87ff847e87ff847e87ff847e87ff847e87ff847e87ff847e87ff;
0x1847e87ff847e87ff847e87ff847e87ff847e87ff847e87ff847e87ff847e87ff;
0x1847e87ff847e87ff847e87ff847e87ff847e87ff847e87ff847e87ff847e87ff;
0x1847e87ff847e87ff847e87ff847e87ff847e87ff847e87ff847e87ff847e87ff;
0x1847e87ff847e87ff847e87ff847e87ff847e87ff847e87ff847e87ff847e87ff;
0x1847e87ff847e87ff847e87ff847e87ff847e87ff847e87ff847e87ff847e87ff;
0x1847e87ff847e87ff847e87ff847e87ff847e87ff847e87ff847e87ff847e87ff;
0x1847e87ff847e87ff847e87ff847e87ff847e87ff847e87ff847e87ff847e87ff;
0x1847e87ff847e87ff847e87ff847e87ff847e87ff847e87ff847e87ff847e87ff;
0x1847e87ff847e87ff847e87ff847e87ff847e87ff847e87ff847e87ff847e87ff;
0x1847e87ff847e87ff847e87ff847e87ff847e87ff847e87ff847e87ff847e87ff;
0x1847e87ff847e87ff847e87ff847e87ff847e87ff847e87ff847e87ff847e87ff;
0x1847e87ff847e87ff847e87ff847e87ff847e87ff847e87ff847e87ff847e87ff;
0x1847e87ff847e87ff847e87ff847e87ff847e87ff847e87ff847e87ff847e87ff;
0x1847e87ff847e87ff847e87ff847e87ff847e87ff847e87ff847e87ff847e87ff;
0x1847e87ff847e87ff847e87ff847e87ff847e87ff000000000000000000000000;
0x10000000000000000000000000000000000000000000000000000000000000000;
0x10000000000000000000000000000000000000000000000000000000000000000;
0x10000000000000000000000000000000000000000000000000000000000000000;
0x10000000000000000000000000000000000000000000000000000000000000000;
0x10000000000000000000000000000000000000000000000000000000000000000;
0x10000000000000000000000000000000000000000000000000000000000000000;
0x10000000000000000000000000000000000000000000000000000000000000000;
0x10000000000000000000000000000000000000000000000000000000000000000;
0x10000000000000000].
(** redeclipse/prefabs/castle/castle_wall_entry.vox (3220 bytes) *)
Definition vox_castle_castle_wall_entry : list Z := [
0x1564f5820960000004d41494e00000000800c000053495a450c00000000000000;
0x108000000080000001300000058595a4950080000000000001302000000000001;
0x10001000100020001000300010004000100050001000600010007000100000101;
0x10100010100010101010101010002010101020101000301010103010100040101;
0x10104010100050101010501010006010101060101000701010107010100000201;
0x10100020100010201010102010002020101020201000302010103020100040201;
0x10104020100050201010502010205020100060201010602010206020100070201;
0x10107020102070201000003010001030100020301000303010004030101040301;
0x10005030101050301000603010106030102060301000703010107030102070301;
0x10307030100000401000104010002040100030401000404010104040100050401;
0x10105040100060401010604010206040100070401010704010207040103070401;
0x10407040100000501000105010002050100030501000405010104050100050501;
0x10105050100060501010605010206050100070501010705010207050103070501;
0x10407050105070501000006010100060100010601010106010002060101020601;
0x10003060101030601000406010104060100050601010506010205060106050601;
0x10006060101060601020606010306060104060601050606010606060100070601;
0x10107060102070601030706010407060105070601060706010000070101000701;
0x10200070106000701070007010001070101010701020107010601070107010701;
0x10002070101020701020207010602070107020701000307010103070102030701;
0x10603070107030701000407010104070102040701030407010404070105040701;
0x10604070107040701000507010105070102050701030507010405070105050701;
0x10605070107050701000607010106070102060701030607010406070105060701;
0x10606070107060701000707010107070102070701030707010407070105070701;
0x10607070107070701000008010100080102000801030008010400080105000801;
0x10600080107000801000108010101080102010801030108010401080105010801;
0x10601080107010801000208010102080102020801030208010402080105020801;
0x10602080107020801000308010103080102030801030308010403080105030801;
0x10603080107030801000408010104080102040801030408010404080105040801;
0x10604080107040801000508010105080102050801030508010405080105050801;
0x10605080107050801000608010106080102060801030608010406080105060801;
0x10606080107060801000708010107080102070801030708010407080105070801;
0x10607080107070801000009010100090102000901030009010400090105000901;
0x10600090107000901010109010201090103010901040109010501090106010901;
0x10701090101020901020209010302090104020901050209010602090107020901;
0x10103090102030901030309010403090105030901060309010703090101040901;
0x10204090103040901040409010504090106040901070409010105090102050901;
0x10305090104050901050509010605090107050901010609010206090103060901;
0x10406090105060901060609010706090100070901010709010207090103070901;
0x10407090105070901060709010707090100000a0101000a0102000a0103000a01;
0x104000a0105000a0106000a0107000a0102010a0103010a0104010a0105010a01;
0x106010a0107010a0102020a0103020a0104020a0105020a0106020a0107020a01;
0x102030a0103030a0104030a0105030a0106030a0107030a0102040a0103040a01;
0x104040a0105040a0106040a0107040a0102050a0103050a0104050a0105050a01;
0x106050a0107050a0102060a0103060a0104060a0105060a0106060a0107060a01;
0x100070a0101070a0102070a0103070a0104070a0105070a0106070a0107070a01;
0x100000b0101000b0102000b0103000b0104000b0105000b0106000b0107000b01;
0x103010b0104010b0105010b0106010b0107010b0103020b0104020b0105020b01;
0x106020b0107020b0103030b0104030b0105030b0106030b0107030b0103040b01;
0x104040b0105040b0106040b0107040b0103050b0104050b0105050b0106050b01;
0x107050b0103060b0104060b0105060b0106060b0107060b0100070b0101070b01;
0x102070b0103070b0104070b0105070b0106070b0107070b0100000c0101000c01;
0x102000c0103000c0104000c0105000c0106000c0107000c0104010c0105010c01;
0x106010c0107010c0104020c0105020c0106020c0107020c0104030c0105030c01;
0x106030c0107030c0104040c0105040c0106040c0107040c0104050c0105050c01;
0x106050c0107050c0104060c0105060c0106060c0107060c0100070c0101070c01;
0x102070c0103070c0104070c0105070c0106070c0107070c0100000d0101000d01;
0x102000d0103000d0104000d0105000d0106000d0107000d0105010d0106010d01;
0x107010d0105020d0106020d0107020d0105030d0106030d0107030d0105040d01;
0x106040d0107040d0105050d0106050d0107050d0105060d0106060d0107060d01;
0x100070d0101070d0102070d0103070d0104070d0105070d0106070d0107070d01;
0x100000e0101000e0102000e0103000e0104000e0105000e0106000e0107000e01;
0x106010e0107010e0106020e0107020e0106030e0107030e0106040e0107040e01;
0x106050e0107050e0106060e0107060e0100070e0101070e0102070e0103070e01;
0x104070e0105070e0106070e0107070e0100000f0101000f0102000f0103000f01;
0x104000f0105000f0106000f0107000f0107010f0107020f0107030f0107040f01;
0x107050f0107060f0100070f0101070f0102070f0103070f0104070f0105070f01;
0x106070f0107070f01010010010300100105001001060010010700100101071001;
0x10307100105071001060710010707100106001101070011010607110107071101;
0x1070012010707120152474241000400000000000000000000847e87ff847e87ff;
0x1847e87ff847e87ff847e87ff847e87ff847e87ff847e87ff847e87ff847e87ff;
0x1847e87ff847e87ff847e87ff847e87ff847e87ff847e87ff847e87ff847e87ff;
0x1847e87ff847e87ff847e87ff847e87ff847e87ff847e87ff847e87ff847e87ff;
0x1847e87ff847e87ff847e87ff847e87ff847e87ff847e87ff847e87ff847e87ff;
0x1847e87ff847e87ff847e87ff847e87ff847e87ff847e87ff847e87ff847e87ff;
0x1847e87ff847e87ff847e87ff847e87ff847e87ff847e87ff847e87ff847e87ff;
0x1847e87ff847e87ff847e87ff847e87ff847e87ff847e87ff847e87ff847e87ff;
0x1847e87ff847e87ff847e87ff847e87ff847e87ff847e87ff847e87ff847e87ff;
0x1847e87ff847e87ff847e87ff847e87ff847e87ff847e87ff847e87ff847e87ff;
0x1847e87ff847e87ff847e87ff847e87ff847e87ff847e87ff847e87ff847e87ff;
0x1847e87ff847e87ff847e87ff847e87ff847e87ff847e87ff847e87ff847e87ff;
0x1847e87ff847e87ff847e87ff847e87ff847e87ff847e87ff847e87ff847e87ff;
0x1847e87ff847e87ff847e87ff847e87ff847e87ff847e87ff847e87ff847e87ff;
0x1847e87ff847e87ff847e87ff847e87ff847e87ff847e87ff847e87ff847e87ff;
0x1847e87ff847e87ff847e87ff847e87ff847e87ff847e87ff847e87ff847e87ff;
0x1847e87ff847e87ff847e87ff847e87ff847e87ff847e87ff847e87ff847e87ff;
0x1847e87ff847e87ff847e87ff847e87ff847e87ff847e87ff847e87ff847e87ff;
0x1847e87ff847e87ff847e87ff847e87ff847e87ff847e87ff847e87ff847e87ff;
0x1847e87ff847e87ff847e87ff847e87ff847e87ff847e87ff847e87ff847e87ff;
0x1847e87ff847e87ff847e87ff847e87ff847e87ff847e87ff847e87ff847e87ff;
0x1847e87ff847e87ff847e87ff847e87ff847e87ff847e87ff847e87ff847e87ff;
0x1847e87ff847e87ff847e87ff847e87ff847e87ff847e87ff847e87ff00000000;
0x10000000000000000000000000000000000000000000000000000000000000000;
0x10000000000000000000000000000000000000000000000000000000000000000;
0x10000000000000000000000000000000000000000000000000000000000000000;
0x10000000000000000000000000000000000000000000000000000000000000000;
0x10000000000000000000000000000000000000000000000000000000000000000;
0x10000000000000000000000000000000000000000000000000000000000000000;
0x10000000000000000000000000000000000000000000000000000000000000000;
0x10000000000000000000000000000000000000000000000000000000000000000;
0x10000000000000000000000000000000000000000000000000000000000000000;
0x10000000000000000000000000000000000000000].
(** redeclipse/prefabs/castle/castle_wall_section.vox (3560 bytes) *)
Definition vox_castle_castle_wall_section : list Z := [
0x1564f5820960000004d41494e00000000d40d000053495a450c00000000000000;
0x108000000080000000c00000058595a49a4090000000000006802000000000001;
0x10100000102000001030000010400000105000001060000010700000100010001;
0x10101000102010001030100010401000105010001060100010701000100020001;
0x10102000102020001030200010402000105020001060200010702000100030001;
0x10103000102030001030300010403000105030001060300010703000100040001;
0x10104000102040001030400010404000105040001060400010704000100050001;
0x10105000102050001030500010405000105050001060500010705000100060001;
0x10106000102060001030600010406000105060001060600010706000100070001;
0x10107000102070001030700010407000105070001060700010707000100000101;
0x10100010102000101030001010400010105000101060001010700010100010101;
0x10101010102010101030101010401010105010101060101010701010100020101;
0x10102010102020101030201010402010105020101060201010702010100030101;
0x10103010102030101030301010403010105030101060301010703010100040101;
0x10104010102040101030401010404010105040101060401010704010100050101;
0x10105010102050101030501010405010105050101060501010705010100060101;
0x10106010102060101030601010406010105060101060601010706010100070101;
0x10107010102070101030701010407010105070101060701010707010100000201;
0x10100020102000201030002010400020105000201060002010700020100010201;
0x10101020102010201030102010401020105010201060102010701020100020201;
0x10102020102020201030202010402020105020201060202010702020100030201;
0x10103020102030201030302010403020105030201060302010703020100040201;
0x10104020102040201030402010404020105040201060402010704020100050201;
0x10105020102050201030502010405020105050201060502010705020100060201;
0x10106020102060201030602010406020105060201060602010706020100070201;
0x10107020102070201030702010407020105070201060702010707020100000301;
0x10100030102000301030003010400030105000301060003010700030100010301;
0x10101030102010301030103010401030105010301060103010701030100020301;
0x10102030102020301030203010402030105020301060203010702030100030301;
0x10103030102030301030303010403030105030301060303010703030100040301;
0x10104030102040301030403010404030105040301060403010704030100050301;
0x10105030102050301030503010405030105050301060503010705030100060301;
0x10106030102060301030603010406030105060301060603010706030100070301;
0x10107030102070301030703010407030105070301060703010707030100000401;
0x10100040102000401030004010400040105000401060004010700040100010401;
0x10101040102010401030104010401040105010401060104010701040100020401;
0x10102040102020401030204010402040105020401060204010702040100030401;
0x10103040102030401030304010403040105030401060304010703040100040401;
0x10104040102040401030404010404040105040401060404010704040100050401;
0x10105040102050401030504010405040105050401060504010705040100060401;
0x10106040102060401030604010406040105060401060604010706040100070401;
0x10107040102070401030704010407040105070401060704010707040100000501;
0x10100050102000501030005010400050105000501060005010700050100010501;
0x10101050102010501030105010401050105010501060105010701050100020501;
0x10102050102020501030205010402050105020501060205010702050100030501;
0x10103050102030501030305010403050105030501060305010703050100040501;
0x10104050102040501030405010404050105040501060405010704050100050501;
0x10105050102050501030505010405050105050501060505010705050100060501;
0x10106050102060501030605010406050105060501060605010706050100070501;
0x10107050102070501030705010407050105070501060705010707050100000601;
0x10100060102000601030006010400060105000601060006010700060100010601;
0x10101060102010601030106010401060105010601060106010701060100020601;
0x10102060102020601030206010402060105020601060206010702060100030601;
0x10103060102030601030306010403060105030601060306010703060100040601;
0x10104060102040601030406010404060105040601060406010704060100050601;
0x10105060102050601030506010405060105050601060506010705060100060601;
0x10106060102060601030606010406060105060601060606010706060100070601;
0x10107060102070601030706010407060105070601060706010707060100000701;
0x10100070102000701030007010400070105000701060007010700070100010701;
0x10101070102010701030107010401070105010701060107010701070100020701;
0x10102070102020701030207010402070105020701060207010702070100030701;
0x10103070102030701030307010403070105030701060307010703070100040701;
0x10104070102040701030407010404070105040701060407010704070100050701;
0x10105070102050701030507010405070105050701060507010705070100060701;
0x10106070102060701030607010406070105060701060607010706070100070701;
0x10107070102070701030707010407070105070701060707010707070100000801;
0x10100080102000801030008010400080105000801060008010700080100010801;
0x101010801020108010301084f0401084f05010801060108010701084f00020801;
0x10102080102020801030208010402080105020801060208010702080100030801;
0x1010308010203080103030801040308010503084f0603084f0703080100040801;
0x1010408010204084f03040801040408010504084f0604084f0704080100050801;
0x10105080102050801030508010405080105050801060508010705080100060801;
0x10106080102060801030608010406080105060801060608010706080100070801;
0x1010708010207084f030708010407080105070801060708010707080100000901;
0x10100090102000901030009010400090105000901060009010700090100070901;
0x101070901020709010307094f040709010507094f0607094f0707090100000a01;
0x101000a0102000a4f03000a0104000a0105000a0106000a0107000a4f00070a01;
0x101070a0102070a0103070a0104070a0105070a0106070a0107070a4f00000b01;
0x102000b4f04000b0106000b4f00070b4f02070b0104070b4f06070b0152474241;
0x1000400000000000000000000847e87ff847e87ff847e87ff847e87ff847e87ff;
0x1847e87ff847e87ff847e87ff847e87ff847e87ff847e87ff847e87ff847e87ff;
0x1847e87ff847e87ff847e87ff847e87ff847e87ff847e87ff847e87ff847e87ff;
0x1847e87ff847e87ff847e87ff847e87ff847e87ff847e87ff847e87ff847e87ff;
0x1847e87ff847e87ff847e87ff847e87ff847e87ff847e87ff847e87ff847e87ff;
0x1847e87ff847e87ff847e87ff847e87ff847e87ff847e87ff847e87ff847e87ff;
0x1847e87ff847e87ff847e87ff847e87ff847e87ff847e87ff847e87ff847e87ff;
0x1847e87ff847e87ff847e87ff847e87ff847e87ff847e87ff847e87ff847e87ff;
0x1847e87ff847e87ff847e87ff847e87ff847e87ff847e87ff847e87ff847e87ff;
0x1847e87ff847e87ff847e87ff847e87ff847e87ff847e87ff847e87ff847e87ff;
0x1847e87ff9badb7ff9badb7ff9badb7ff9badb7ff9badb7ff9badb7ff9badb7ff;
0x19badb7ff9badb7ff9badb7ff9badb7ff9badb7ff9badb7ff9badb7ff9badb7ff;
0x1847e87ff847e87ff847e87ff847e87ff847e87ff847e87ff847e87ff847e87ff;
0x1847e87ff847e87ff847e87ff847e87ff847e87ff847e87ff847e87ff847e87ff;
0x1847e87ff847e87ff847e87ff847e87ff847e87ff847e87ff847e87ff847e87ff;
0x1847e87ff847e87ff847e87ff847e87ff847e87ff847e87ff847e87ff847e87ff;
0x1847e87ff847e87ff847e87ff847e87ff847e87ff847e87ff847e87ff847e87ff;
0x1847e87ff847e87ff847e87ff847e87ff847e87ff847e87ff847e87ff847e87ff;
0x1847e87ff847e87ff847e87ff847e87ff847e87ff847e87ff847e87ff847e87ff;
0x1847e87ff847e87ff847e87ff847e87ff847e87ff847e87ff847e87ff847e87ff;
0x1847e87ff847e87ff847e87ff847e87ff00000000000000000000000000000000;
0x10000000000000000000000000000000000000000000000000000000000000000;
0x10000000000000000000000000000000000000000000000000000000000000000;
0x10000000000000000000000000000000000000000000000000000000000000000;
0x10000000000000000000000000000000000000000000000000000000000000000;
0x10000000000000000000000000000000000000000000000000000000000000000;
0x10000000000000000000000000000000000000000000000000000000000000000;
0x10000000000000000000000000000000000000000000000000000000000000000;
0x10000000000000000000000000000000000000000000000000000000000000000;
0x10000000000000000000000000000000000000000000000000000000000000000;
0x10000000000000000000000000000000000000000000000000000000000000000;
0x10000000000000000000000000000000000000000000000000000000000000000;
0x10000000000000000].
(** redeclipse/prefabs/castle/castle_wall_section_endcap.vox (3616 bytes) *)
Definition vox_castle_castle_wall_section_endcap : list Z := [
0x1564f5820960000004d41494e000000000c0e000053495a450c00000000000000;
0x108000000080000000c00000058595a49dc090000000000007602000000000001;
0x10100000102000001030000010400000105000001060000010700000100010001;
0x10101000102010001030100010401000105010001060100010701000100020001;
0x10102000102020001030200010402000105020001060200010702000100030001;
0x10103000102030001030300010403000105030001060300010703000100040001;
0x10104000102040001030400010404000105040001060400010704000100050001;
0x10105000102050001030500010405000105050001060500010705000100060001;
0x10106000102060001030600010406000105060001060600010706000100070001;
0x10107000102070001030700010407000105070001060700010707000100000101;
0x10100010102000101030001010400010105000101060001010700010100010101;
0x10101010102010101030101010401010105010101060101010701010100020101;
0x10102010102020101030201010402010105020101060201010702010100030101;
0x10103010102030101030301010403010105030101060301010703010100040101;
0x10104010102040101030401010404010105040101060401010704010100050101;
0x10105010102050101030501010405010105050101060501010705010100060101;
0x10106010102060101030601010406010105060101060601010706010100070101;
0x10107010102070101030701010407010105070101060701010707010100000201;
0x10100020102000201030002010400020105000201060002010700020100010201;
0x10101020102010201030102010401020105010201060102010701020100020201;
0x10102020102020201030202010402020105020201060202010702020100030201;
0x10103020102030201030302010403020105030201060302010703020100040201;
0x10104020102040201030402010404020105040201060402010704020100050201;
0x10105020102050201030502010405020105050201060502010705020100060201;
0x10106020102060201030602010406020105060201060602010706020100070201;
0x10107020102070201030702010407020105070201060702010707020100000301;
0x10100030102000301030003010400030105000301060003010700030100010301;
0x10101030102010301030103010401030105010301060103010701030100020301;
0x10102030102020301030203010402030105020301060203010702030100030301;
0x10103030102030301030303010403030105030301060303010703030100040301;
0x10104030102040301030403010404030105040301060403010704030100050301;
0x10105030102050301030503010405030105050301060503010705030100060301;
0x10106030102060301030603010406030105060301060603010706030100070301;
0x10107030102070301030703010407030105070301060703010707030100000401;
0x10100040102000401030004010400040105000401060004010700040100010401;
0x10101040102010401030104010401040105010401060104010701040100020401;
0x10102040102020401030204010402040105020401060204010702040100030401;
0x10103040102030401030304010403040105030401060304010703040100040401;
0x10104040102040401030404010404040105040401060404010704040100050401;
0x10105040102050401030504010405040105050401060504010705040100060401;
0x10106040102060401030604010406040105060401060604010706040100070401;
0x10107040102070401030704010407040105070401060704010707040100000501;
0x10100050102000501030005010400050105000501060005010700050100010501;
0x10101050102010501030105010401050105010501060105010701050100020501;
0x10102050102020501030205010402050105020501060205010702050100030501;
0x10103050102030501030305010403050105030501060305010703050100040501;
0x10104050102040501030405010404050105040501060405010704050100050501;
0x10105050102050501030505010405050105050501060505010705050100060501;
0x10106050102060501030605010406050105060501060605010706050100070501;
0x10107050102070501030705010407050105070501060705010707050100000601;
0x10100060102000601030006010400060105000601060006010700060100010601;
0x10101060102010601030106010401060105010601060106010701060100020601;
0x10102060102020601030206010402060105020601060206010702060100030601;
0x10103060102030601030306010403060105030601060306010703060100040601;
0x10104060102040601030406010404060105040601060406010704060100050601;
0x10105060102050601030506010405060105050601060506010705060100060601;
0x10106060102060601030606010406060105060601060606010706060100070601;
0x10107060102070601030706010407060105070601060706010707060100000701;
0x10100070102000701030007010400070105000701060007010700070100010701;
0x10101070102010701030107010401070105010701060107010701070100020701;
0x10102070102020701030207010402070105020701060207010702070100030701;
0x10103070102030701030307010403070105030701060307010703070100040701;
0x10104070102040701030407010404070105040701060407010704070100050701;
0x10105070102050701030507010405070105050701060507010705070100060701;
0x10106070102060701030607010406070105060701060607010706070100070701;
0x10107070102070701030707010407070105070701060707010707070100000801;
0x10100080102000801030008010400080105000801060008010700080100010801;
0x10101080102010801030108010401080105010801060108010701080100020801;
0x10102080102020801030208010402080105020801060208010702080100030801;
0x10103080102030801030308010403080105030801060308010703080100040801;
0x10104080102040801030408010404080105040801060408010704080100050801;
0x10105080102050801030508010405080105050801060508010705080100060801;
0x10106080102060801030608010406080105060801060608010706080100070801;
0x10107080102070801030708010407080105070801060708010707080100000901;
0x10100090102000901030009010400090105000901060009010700090107010901;
0x10702090107030901070409010705090107060901000709010107090102070901;
0x1030709010407090105070901060709010707090100000a0101000a0102000a01;
0x103000a0104000a0105000a0106000a0107000a0107010a0107020a0107030a01;
0x107040a0107050a0107060a0100070a0101070a0102070a0103070a0104070a01;
0x105070a0106070a0107070a0101000b0103000b0105000b0107000b0107020b01;
0x107050b0101070b0103070b0105070b0107070b01524742410004000000000000;
0x100000000847e87ff847e87ff847e87ff847e87ff847e87ff847e87ff847e87ff;
0x1847e87ff847e87ff847e87ff847e87ff847e87ff847e87ff847e87ff847e87ff;
0x1847e87ff847e87ff847e87ff847e87ff847e87ff847e87ff847e87ff847e87ff;
0x1847e87ff847e87ff847e87ff847e87ff847e87ff847e87ff847e87ff847e87ff;
0x1847e87ff847e87ff847e87ff847e87ff847e87ff847e87ff847e87ff847e87ff;
0x1847e87ff847e87ff847e87ff847e87ff847e87ff847e87ff847e87ff847e87ff;
0x1847e87ff847e87ff847e87ff847e87ff847e87ff847e87ff847e87ff847e87ff;
0x1847e87ff847e87ff847e87ff847e87ff847e87ff847e87ff847e87ff847e87ff;
0x1847e87ff847e87ff847e87ff847e87ff847e87ff847e87ff847e87ff847e87ff;
0x1847e87ff847e87ff847e87ff847e87ff847e87ff847e87ff847e87ff847e87ff;
0x1847e87ff847e87ff847e87ff847e87ff847e87ff847e87ff847e87ff847e87ff;
0x1847e87ff847e87ff847e87ff847e87ff847e87ff847e87ff847e87ff847e87ff;
0x1847e87ff847e87ff847e87ff847e87ff847e87ff847e87ff847e87ff847e87ff;
0x1847e87ff847e87ff847e87ff847e87ff847e87ff847e87ff847e87ff847e87ff;
0x1847e87ff847e87ff847e87ff847e87ff847e87ff847e87ff847e87ff847e87ff;
0x1847e87ff847e87ff847e87ff847e87ff847e87ff847e87ff847e87ff847e87ff;
0x1847e87ff847e87ff847e87ff847e87ff847e87ff847e87ff847e87ff847e87ff;
0x1847e87ff847e87ff847e87ff847e87ff847e87ff847e87ff847e87ff847e87ff;
0x1847e87ff847e87ff847e87ff847e87ff847e87ff847e87ff847e87ff847e87ff;
0x1847e87ff847e87ff847e87ff847e87ff847e87ff847e87ff847e87ff847e87ff;
0x1847e87ff847e87ff847e87ff847e87ff847e87ff847e87ff847e87ff847e87ff;
0x1847e87ff847e87ff847e87ff847e87ff847e87ff847e87ff847e87ff847e87ff;
0x1847e87ff847e87ff000000000000000000000000000000000000000000000000;
0x10000000000000000000000000000000000000000000000000000000000000000;
0x10000000000000000000000000000000000000000000000000000000000000000;
0x10000000000000000000000000000000000000000000000000000000000000000;
0x10000000000000000000000000000000000000000000000000000000000000000;
0x10000000000000000000000000000000000000000000000000000000000000000;
0x10000000000000000000000000000000000000000000000000000000000000000;
0x10000000000000000000000000000000000000000000000000000000000000000;
0x10000000000000000000000000000000000000000000000000000000000000000;
0x10000000000000000000000000000000000000000000000000000000000000000].
(** redeclipse/prefabs/castle/castle_wall_section_long.vox (8488 bytes) *)
Definition vox_castle_castle_wall_section_long : list Z := [
0x1564f5820960000004d41494e000000001421000053495a450c00000000000000;
0x118000000080000000c00000058595a49e41c0000000000003807000000000001;
0x10100000102000001030000010400000105000001060000010700000108000001;
0x1090000010a0000010b0000010c0000010d0000010e0000010f00000110000001;
0x11100000112000001130000011400000115000001160000011700000100010001;
0x10101000102010001030100010401000105010001060100010701000108010001;
0x1090100010a0100010b0100010c0100010d0100010e0100010f01000110010001;
0x11101000112010001130100011401000115010001160100011701000100020001;
0x10102000102020001030200010402000105020001060200010702000108020001;
0x1090200010a0200010b0200010c0200010d0200010e0200010f02000110020001;
0x11102000112020001130200011402000115020001160200011702000100030001;
0x10103000102030001030300010403000105030001060300010703000108030001;
0x1090300010a0300010b0300010c0300010d0300010e0300010f03000110030001;
0x11103000112030001130300011403000115030001160300011703000100040001;
0x10104000102040001030400010404000105040001060400010704000108040001;
0x1090400010a0400010b0400010c0400010d0400010e0400010f04000110040001;
0x11104000112040001130400011404000115040001160400011704000100050001;
0x10105000102050001030500010405000105050001060500010705000108050001;
0x1090500010a0500010b0500010c0500010d0500010e0500010f05000110050001;
0x11105000112050001130500011405000115050001160500011705000100060001;
0x10106000102060001030600010406000105060001060600010706000108060001;
0x1090600010a0600010b0600010c0600010d0600010e0600010f06000110060001;
0x11106000112060001130600011406000115060001160600011706000100070001;
0x10107000102070001030700010407000105070001060700010707000108070001;
0x1090700010a0700010b0700010c0700010d0700010e0700010f07000110070001;
0x11107000112070001130700011407000115070001160700011707000100000101;
0x10100010102000101030001010400010105000101060001010700010108000101;
0x1090001010a0001010b0001010c0001010d0001010e0001010f00010110000101;
0x11100010112000101130001011400010115000101160001011700010100010101;
0x10101010102010101030101010401010105010101060101010701010108010101;
0x1090101010a0101010b0101010c0101010d0101010e0101010f01010110010101;
0x11101010112010101130101011401010115010101160101011701010100020101;
0x10102010102020101030201010402010105020101060201010702010108020101;
0x1090201010a0201010b0201010c0201010d0201010e0201010f02010110020101;
0x11102010112020101130201011402010115020101160201011702010100030101;
0x10103010102030101030301010403010105030101060301010703010108030101;
0x1090301010a0301010b0301010c0301010d0301010e0301010f03010110030101;
0x11103010112030101130301011403010115030101160301011703010100040101;
0x10104010102040101030401010404010105040101060401010704010108040101;
0x1090401010a0401010b0401010c0401010d0401010e0401010f04010110040101;
0x11104010112040101130401011404010115040101160401011704010100050101;
0x10105010102050101030501010405010105050101060501010705010108050101;
0x1090501010a0501010b0501010c0501010d0501010e0501010f05010110050101;
0x11105010112050101130501011405010115050101160501011705010100060101;
0x10106010102060101030601010406010105060101060601010706010108060101;
0x1090601010a0601010b0601010c0601010d0601010e0601010f06010110060101;
0x11106010112060101130601011406010115060101160601011706010100070101;
0x10107010102070101030701010407010105070101060701010707010108070101;
0x1090701010a0701010b0701010c0701010d0701010e0701010f07010110070101;
0x11107010112070101130701011407010115070101160701011707010100000201;
0x10100020102000201030002010400020105000201060002010700020108000201;
0x1090002010a0002010b0002010c0002010d0002010e0002010f00020110000201;
0x11100020112000201130002011400020115000201160002011700020100010201;
0x10101020102010201030102010401020105010201060102010701020108010201;
0x1090102010a0102010b0102010c0102010d0102010e0102010f01020110010201;
0x11101020112010201130102011401020115010201160102011701020100020201;
0x10102020102020201030202010402020105020201060202010702020108020201;
0x1090202010a0202010b0202010c0202010d0202010e0202010f02020110020201;
0x11102020112020201130202011402020115020201160202011702020100030201;
0x10103020102030201030302010403020105030201060302010703020108030201;
0x1090302010a0302010b0302010c0302010d0302010e0302010f03020110030201;
0x11103020112030201130302011403020115030201160302011703020100040201;
0x10104020102040201030402010404020105040201060402010704020108040201;
0x1090402010a0402010b0402010c0402010d0402010e0402010f04020110040201;
0x11104020112040201130402011404020115040201160402011704020100050201;
0x10105020102050201030502010405020105050201060502010705020108050201;
0x1090502010a0502010b0502010c0502010d0502010e0502010f05020110050201;
0x11105020112050201130502011405020115050201160502011705020100060201;
0x10106020102060201030602010406020105060201060602010706020108060201;
0x1090602010a0602010b0602010c0602010d0602010e0602010f06020110060201;
0x11106020112060201130602011406020115060201160602011706020100070201;
0x10107020102070201030702010407020105070201060702010707020108070201;
0x1090702010a0702010b0702010c0702010d0702010e0702010f07020110070201;
0x11107020112070201130702011407020115070201160702011707020100000301;
0x10100030102000301030003010400030105000301060003010700030108000301;
0x1090003010a0003010b0003010c0003010d0003010e0003010f00030110000301;
0x11100030112000301130003011400030115000301160003011700030100010301;
0x10101030102010301030103010401030105010301060103010701030108010301;
0x1090103010a0103010b0103010c0103010d0103010e0103010f01030110010301;
0x11101030112010301130103011401030115010301160103011701030100020301;
0x10102030102020301030203010402030105020301060203010702030108020301;
0x1090203010a0203010b0203010c0203010d0203010e0203010f02030110020301;
0x11102030112020301130203011402030115020301160203011702030100030301;
0x10103030102030301030303010403030105030301060303010703030108030301;
0x1090303010a0303010b0303010c0303010d0303010e0303010f03030110030301;
0x11103030112030301130303011403030115030301160303011703030100040301;
0x10104030102040301030403010404030105040301060403010704030108040301;
0x1090403010a0403010b0403010c0403010d0403010e0403010f04030110040301;
0x11104030112040301130403011404030115040301160403011704030100050301;
0x10105030102050301030503010405030105050301060503010705030108050301;
0x1090503010a0503010b0503010c0503010d0503010e0503010f05030110050301;
0x11105030112050301130503011405030115050301160503011705030100060301;
0x10106030102060301030603010406030105060301060603010706030108060301;
0x1090603010a0603010b0603010c0603010d0603010e0603010f06030110060301;
0x11106030112060301130603011406030115060301160603011706030100070301;
0x10107030102070301030703010407030105070301060703010707030108070301;
0x1090703010a0703010b0703010c0703010d0703010e0703010f07030110070301;
0x11107030112070301130703011407030115070301160703011707030100000401;
0x10100040102000401030004010400040105000401060004010700040108000401;
0x1090004010a0004010b0004010c0004010d0004010e0004010f00040110000401;
0x11100040112000401130004011400040115000401160004011700040100010401;
0x10101040102010401030104010401040105010401060104010701040108010401;
0x1090104010a0104010b0104010c0104010d0104010e0104010f01040110010401;
0x11101040112010401130104011401040115010401160104011701040100020401;
0x10102040102020401030204010402040105020401060204010702040108020401;
0x1090204010a0204010b0204010c0204010d0204010e0204010f02040110020401;
0x11102040112020401130204011402040115020401160204011702040100030401;
0x10103040102030401030304010403040105030401060304010703040108030401;
0x1090304010a0304010b0304010c0304010d0304010e0304010f03040110030401;
0x11103040112030401130304011403040115030401160304011703040100040401;
0x10104040102040401030404010404040105040401060404010704040108040401;
0x1090404010a0404010b0404010c0404010d0404010e0404010f04040110040401;
0x11104040112040401130404011404040115040401160404011704040100050401;
0x10105040102050401030504010405040105050401060504010705040108050401;
0x1090504010a0504010b0504010c0504010d0504010e0504010f05040110050401;
0x11105040112050401130504011405040115050401160504011705040100060401;
0x10106040102060401030604010406040105060401060604010706040108060401;
0x1090604010a0604010b0604010c0604010d0604010e0604010f06040110060401;
0x11106040112060401130604011406040115060401160604011706040100070401;
0x10107040102070401030704010407040105070401060704010707040108070401;
0x1090704010a0704010b0704010c0704010d0704010e0704010f07040110070401;
0x11107040112070401130704011407040115070401160704011707040100000501;
0x10100050102000501030005010400050105000501060005010700050108000501;
0x1090005010a0005010b0005010c0005010d0005010e0005010f00050110000501;
0x11100050112000501130005011400050115000501160005011700050100010501;
0x10101050102010501030105010401050105010501060105010701050108010501;
0x1090105010a0105010b0105010c0105010d0105010e0105010f01050110010501;
0x11101050112010501130105011401050115010501160105011701050100020501;
0x10102050102020501030205010402050105020501060205010702050108020501;
0x1090205010a0205010b0205010c0205010d0205010e0205010f02050110020501;
0x11102050112020501130205011402050115020501160205011702050100030501;
0x10103050102030501030305010403050105030501060305010703050108030501;
0x1090305010a0305010b0305010c0305010d0305010e0305010f03050110030501;
0x11103050112030501130305011403050115030501160305011703050100040501;
0x10104050102040501030405010404050105040501060405010704050108040501;
0x1090405010a0405010b0405010c0405010d0405010e0405010f04050110040501;
0x11104050112040501130405011404050115040501160405011704050100050501;
0x10105050102050501030505010405050105050501060505010705050108050501;
0x1090505010a0505010b0505010c0505010d0505010e0505010f05050110050501;
0x11105050112050501130505011405050115050501160505011705050100060501;
0x10106050102060501030605010406050105060501060605010706050108060501;
0x1090605010a0605010b0605010c0605010d0605010e0605010f06050110060501;
0x11106050112060501130605011406050115060501160605011706050100070501;
0x10107050102070501030705010407050105070501060705010707050108070501;
0x1090705010a0705010b0705010c0705010d0705010e0705010f07050110070501;
0x11107050112070501130705011407050115070501160705011707050100000601;
0x10100060102000601030006010400060105000601060006010700060108000601;
0x1090006010a0006010b0006010c0006010d0006010e0006010f00060110000601;
0x11100060112000601130006011400060115000601160006011700060100010601;
0x10101060102010601030106010401060105010601060106010701060108010601;
0x1090106010a0106010b0106010c0106010d0106010e0106010f01060110010601;
0x11101060112010601130106011401060115010601160106011701060100020601;
0x10102060102020601030206010402060105020601060206010702060108020601;
0x1090206010a0206010b0206010c0206010d0206010e0206010f02060110020601;
0x11102060112020601130206011402060115020601160206011702060100030601;
0x10103060102030601030306010403060105030601060306010703060108030601;
0x1090306010a0306010b0306010c0306010d0306010e0306010f03060110030601;
0x11103060112030601130306011403060115030601160306011703060100040601;
0x10104060102040601030406010404060105040601060406010704060108040601;
0x1090406010a0406010b0406010c0406010d0406010e0406010f04060110040601;
0x11104060112040601130406011404060115040601160406011704060100050601;
0x10105060102050601030506010405060105050601060506010705060108050601;
0x1090506010a0506010b0506010c0506010d0506010e0506010f05060110050601;
0x11105060112050601130506011405060115050601160506011705060100060601;
0x10106060102060601030606010406060105060601060606010706060108060601;
0x1090606010a0606010b0606010c0606010d0606010e0606010f06060110060601;
0x11106060112060601130606011406060115060601160606011706060100070601;
0x10107060102070601030706010407060105070601060706010707060108070601;
0x1090706010a0706010b0706010c0706010d0706010e0706010f07060110070601;
0x11107060112070601130706011407060115070601160706011707060100000701;
0x10100070102000701030007010400070105000701060007010700070108000701;
0x1090007010a0007010b0007010c0007010d0007010e0007010f00070110000701;
0x11100070112000701130007011400070115000701160007011700070100010701;
0x10101070102010701030107010401070105010701060107010701070108010701;
0x1090107010a0107010b0107010c0107010d0107010e0107010f01070110010701;
0x11101070112010701130107011401070115010701160107011701070100020701;
0x10102070102020701030207010402070105020701060207010702070108020701;
0x1090207010a0207010b0207010c0207010d0207010e0207010f02070110020701;
0x11102070112020701130207011402070115020701160207011702070100030701;
0x10103070102030701030307010403070105030701060307010703070108030701;
0x1090307010a0307010b0307010c0307010d0307010e0307010f03070110030701;
0x11103070112030701130307011403070115030701160307011703070100040701;
0x10104070102040701030407010404070105040701060407010704070108040701;
0x1090407010a0407010b0407010c0407010d0407010e0407010f04070110040701;
0x11104070112040701130407011404070115040701160407011704070100050701;
0x10105070102050701030507010405070105050701060507010705070108050701;
0x1090507010a0507010b0507010c0507010d0507010e0507010f05070110050701;
0x11105070112050701130507011405070115050701160507011705070100060701;
0x10106070102060701030607010406070105060701060607010706070108060701;
0x1090607010a0607010b0607010c0607010d0607010e0607010f06070110060701;
0x11106070112060701130607011406070115060701160607011706070100070701;
0x10107070102070701030707010407070105070701060707010707070108070701;
0x1090707010a0707010b0707010c0707010d0707010e0707010f07070110070701;
0x11107070112070701130707011407070115070701160707011707070100000801;
0x10100080102000801030008010400080105000801060008010700080108000801;
0x1090008010a0008010b0008010c0008010d0008010e0008010f00080110000801;
0x11100080112000801130008011400080115000801160008011700080100010801;
0x10101080102010801030108010401080105010801060108010701080108010801;
0x1090108010a0108010b0108010c0108010d0108010e0108010f01080110010801;
0x11101080112010801130108011401080115010801160108011701080100020801;
0x10102080102020801030208010402080105020801060208010702080108020801;
0x1090208010a0208010b0208010c0208010d0208010e0208010f02080110020801;
0x11102080112020801130208011402080115020801160208011702080100030801;
0x10103080102030801030308010403080105030801060308010703080108030801;
0x1090308010a0308010b0308010c0308010d0308010e0308010f03080110030801;
0x11103080112030801130308011403080115030801160308011703080100040801;
0x10104080102040801030408010404080105040801060408010704080108040801;
0x1090408010a0408010b0408010c0408010d0408010e0408010f04080110040801;
0x11104080112040801130408011404080115040801160408011704080100050801;
0x10105080102050801030508010405080105050801060508010705080108050801;
0x1090508010a0508010b0508010c0508010d0508010e0508010f05080110050801;
0x11105080112050801130508011405080115050801160508011705080100060801;
0x10106080102060801030608010406080105060801060608010706080108060801;
0x1090608010a0608010b0608010c0608010d0608010e0608010f06080110060801;
0x11106080112060801130608011406080115060801160608011706080100070801;
0x10107080102070801030708010407080105070801060708010707080108070801;
0x1090708010a0708010b0708010c0708010d0708010e0708010f07080110070801;
0x11107080112070801130708011407080115070801160708011707080100000901;
0x10100090102000901030009010400090105000901060009010700090108000901;
0x1090009010a0009010b0009010c0009010d0009010e0009010f00090110000901;
0x11100090112000901130009011400090115000901160009011700090100070901;
0x10107090102070901030709010407090105070901060709010707090108070901;
0x1090709010a0709010b0709010c0709010d0709010e0709010f07090110070901;
0x11107090112070901130709011407090115070901160709011707090100000a01;
0x101000a0102000a0103000a0104000a0105000a0106000a0107000a0108000a01;
0x109000a010a000a010b000a010c000a010d000a010e000a010f000a0110000a01;
0x111000a0112000a0113000a0114000a0115000a0116000a0117000a0100070a01;
0x101070a0102070a0103070a0104070a0105070a0106070a0107070a0108070a01;
0x109070a010a070a010b070a010c070a010d070a010e070a010f070a0110070a01;
0x111070a0112070a0113070a0114070a0115070a0116070a0117070a0101000b01;
0x103000b0105000b0107000b0109000b010b000b010d000b010f000b0111000b01;
0x113000b0115000b0117000b0101070b0103070b0105070b0107070b0109070b01;
0x10b070b010d070b010f070b0111070b0113070b0115070b0117070b0152474241;
0x1000400000000000000000000847e87ff847e87ff847e87ff847e87ff847e87ff;
0x1847e87ff847e87ff847e87ff847e87ff847e87ff847e87ff847e87ff847e87ff;
0x1847e87ff847e87ff847e87ff847e87ff847e87ff847e87ff847e87ff847e87ff;
0x1847e87ff847e87ff847e87ff847e87ff847e87ff847e87ff847e87ff847e87ff;
0x1847e87ff847e87ff847e87ff847e87ff847e87ff847e87ff847e87ff847e87ff;
0x1847e87ff847e87ff847e87ff847e87ff847e87ff847e87ff847e87ff847e87ff;
0x1847e87ff847e87ff847e87ff847e87ff847e87ff847e87ff847e87ff847e87ff;
0x1847e87ff847e87ff847e87ff847e87ff847e87ff847e87ff847e87ff847e87ff;
0x1847e87ff847e87ff847e87ff847e87ff847e87ff847e87ff847e87ff847e87ff;
0x1847e87ff847e87ff847e87ff847e87ff847e87ff847e87ff847e87ff847e87ff;
0x1847e87ff847e87ff847e87ff847e87ff847e87ff847e87ff847e87ff847e87ff;
0x1847e87ff847e87ff847e87ff847e87ff847e87ff847e87ff847e87ff847e87ff;
0x1847e87ff847e87ff847e87ff847e87ff847e87ff847e87ff847e87ff847e87ff;
0x1847e87ff847e87ff847e87ff847e87ff847e87ff847e87ff847e87ff847e87ff;
0x1847e87ff847e87ff847e87ff847e87ff847e87ff847e87ff847e87ff847e87ff;
0x1847e87ff847e87ff847e87ff847e87ff847e87ff847e87ff847e87ff847e87ff;
0x1847e87ff847e87ff847e87ff847e87ff847e87ff847e87ff847e87ff847e87ff;
0x1847e87ff847e87ff847e87ff847e87ff847e87ff847e87ff847e87ff847e87ff;
0x1847e87ff847e87ff847e87ff847e87ff847e87ff847e87ff847e87ff847e87ff;
0x1847e87ff847e87ff847e87ff847e87ff847e87ff847e87ff847e87ff847e87ff;
0x1847e87ff847e87ff847e87ff847e87ff847e87ff847e87ff847e87ff847e87ff;
0x1847e87ff847e87ff847e87ff847e87ff847e87ff847e87ff847e87ff847e87ff;
0x1847e87ff847e87ff847e87ff847e87ff847e87ff847e87ff847e87ff847e87ff;
0x1847e87ff847e87ff847e87ff847e87ff847e87ff847e87ff847e87ff847e87ff;
0x1847e87ff847e87ff847e87ff847e87ff00000000000000000000000000000000;
0x10000000000000000000000000000000000000000000000000000000000000000;
0x10000000000000000000000000000000000000000000000000000000000000000;
0x10000000000000000000000000000000000000000000000000000000000000000;
0x10000000000000000000000000000000000000000000000000000000000000000;
0x10000000000000000000000000000000000000000000000000000000000000000;
0x10000000000000000000000000000000000000000000000000000000000000000;
0x10000000000000000000000000000000000000000000000000000000000000000;
0x10000000000000000].
(** redeclipse/prefabs/castle/castle_wall_section_long_damaged.vox (6684 bytes) *)
Definition vox_castle_castle_wall_section_long_damaged : list Z := [
0x1564f5820960000004d41494e00000000081a000053495a450c00000000000000;
0x118000000080000000c00000058595a49d8150000000000007505000000000001;
0x10100000102000001030000010400000105000001060000010700000108000001;
0x1090000010a0000010b0000010c0000010d0000010e0000010f00000110000001;
0x11100000112000001130000011400000115000001160000011700000100010001;
0x10101000102010001030100010401000105010001060100010701000108010001;
0x1090100010a0100010b0100010c0100010d0100010e0100010f01000110010001;
0x11101000112010001130100011401000115010001160100011701000100020001;
0x10102000102020001030200010402000105020001060200010702000108020001;
0x1090200010a0200010b0200010c0200010d0200010e0200010f02000110020001;
0x11102000112020001130200011402000115020001160200011702000100030001;
0x10103000102030001030300010403000105030001060300010703000108030001;
0x1090300010a0300010b0300010c0300010d0300010e0300010f03000110030001;
0x11103000112030001130300011403000115030001160300011703000100040001;
0x10104000102040001030400010404000105040001060400010704000108040001;
0x1090400010a0400010b0400010c0400010d0400010e0400010f04000110040001;
0x11104000112040001130400011404000115040001160400011704000100050001;
0x10105000102050001030500010405000105050001060500010705000108050001;
0x1090500010a0500010b0500010c0500010d0500010e0500010f05000110050001;
0x11105000112050001130500011405000115050001160500011705000100060001;
0x10106000102060001030600010406000105060001060600010706000108060001;
0x1090600010a0600010b0600010c0600010d0600010e0600010f06000110060001;
0x11106000112060001130600011406000115060001160600011706000100070001;
0x10107000102070001030700010407000105070001060700010707000108070001;
0x1090700010a0700010b0700010c0700010d0700010e0700010f07000110070001;
0x11107000112070001130700011407000115070001160700011707000100000101;
0x10100010102000101030001010400010105000101060001010700010108000101;
0x1090001010a0001010b0001010c0001010d0001010e0001010f00010110000101;
0x11100010112000101130001011400010115000101160001011700010100010101;
0x10101010102010101030101010401010105010101060101010701010108010101;
0x1090101010a0101010b0101010c0101010d0101010e0101010f01010110010101;
0x11101010112010101130101011401010115010101160101011701010100020101;
0x10102010102020101030201010402010105020101060201010702010108020101;
0x1090201010a0201010b0201010c0201010d0201010e0201010f02010110020101;
0x11102010112020101130201011402010115020101160201011702010100030101;
0x10103010102030101030301010403010105030101060301010703010108030101;
0x1090301010a0301010b0301010c0301010d0301010e0301010f03010110030101;
0x11103010112030101130301011403010115030101160301011703010100040101;
0x10104010102040101030401010404010105040101060401010704010108040101;
0x1090401010a0401010b0401010c0401010d0401010e0401010f04010110040101;
0x11104010112040101130401011404010115040101160401011704010100050101;
0x10105010102050101030501010405010105050101060501010705010108050101;
0x1090501010a0501010b0501010c0501010d0501010e0501010f05010110050101;
0x11105010112050101130501011405010115050101160501011705010100060101;
0x10106010102060101030601010406010105060101060601010706010108060101;
0x1090601010a0601010b0601010c0601010d0601010e0601010f06010110060101;
0x11106010112060101130601011406010115060101160601011706010100070101;
0x10107010102070101030701010407010105070101060701010707010108070101;
0x1090701010a0701010b0701010c0701010d0701010e0701010f07010110070101;
0x11107010112070101130701011407010115070101160701011707010100000201;
0x10100020102000201030002010400020105000201060002010700020108000201;
0x1090002010a0002010b0002010c0002010d0002010e0002010f00020110000201;
0x11100020112000201130002011400020115000201160002011700020100010201;
0x10101020102010201030102010401020105010201060102010701020108010201;
0x1090102010a0102010b0102010c0102010d0102010e0102010f01020110010201;
0x11101020112010201130102011401020115010201160102011701020100020201;
0x10102020102020201030202010402020105020201060202010702020108020201;
0x1090202010a0202010b0202010c0202010d0202010e0202010f02020110020201;
0x11102020112020201130202011402020115020201160202011702020100030201;
0x10103020102030201030302010403020105030201060302010703020108030201;
0x1090302010a0302010b0302010c0302010d0302010e0302010f03020110030201;
0x11103020112030201130302011403020115030201160302011703020100040201;
0x10104020102040201030402010404020105040201060402010704020108040201;
0x1090402010a0402010b0402010c0402010d0402010e0402010f04020110040201;
0x11104020112040201130402011404020115040201160402011704020100050201;
0x10105020102050201030502010405020105050201060502010705020108050201;
0x1090502010a0502010b0502010c0502010d0502010e0502010f05020110050201;
0x11105020112050201130502011405020115050201160502011705020100060201;
0x10106020102060201030602010406020105060201060602010706020108060201;
0x1090602010a0602010b0602010c0602010d0602010e0602010f06020110060201;
0x11106020112060201130602011406020115060201160602011706020100070201;
0x10107020102070201030702010407020105070201060702010707020108070201;
0x1090702010a0702010b0702010c0702010d0702010e0702010f07020110070201;
0x11107020112070201130702011407020115070201160702011707020100000301;
0x10100030102000301030003010700030108000301090003010a0003010b000301;
0x10c0003010d0003010e0003010f00030110000301110003011200030113000301;
0x11400030115000301160003011700030100010301010103010201030108010301;
0x1090103010a0103010b0103010c0103010d0103010e0103010f01030110010301;
0x11101030112010301130103011401030115010301160103011701030100020301;
0x1010203010202030108020301090203010a0203010b0203010c0203010d020301;
0x10e0203010f020301100203011102030112020301130203011402030115020301;
0x11602030117020301000303010103030102030301030303010703030108030301;
0x1090303010a0303010b0303010c0303010d0303010e0303010f03030110030301;
0x11103030112030301130303011403030115030301160303011703030100040301;
0x10104030102040301030403010404030106040301070403010804030109040301;
0x10a0403010b0403010c0403010d0403010e0403010f0403011004030111040301;
0x11204030113040301140403011504030116040301170403010005030101050301;
0x10205030103050301040503010505030106050301070503010805030109050301;
0x10a0503010b0503010c0503010d0503010e0503010f0503011005030111050301;
0x11205030113050301140503011505030116050301170503010006030101060301;
0x10206030103060301040603010506030106060301070603010806030109060301;
0x10a0603010b0603010c0603010d0603010e0603010f0603011006030111060301;
0x11206030113060301140603011506030116060301170603010007030101070301;
0x10207030103070301040703010507030106070301070703010807030109070301;
0x10a0703010b0703010c0703010d0703010e0703010f0703011007030111070301;
0x11207030113070301140703011507030116070301170703010000040101000401;
0x1090004010a0004010b0004010c0004010d0004010e0004010f00040110000401;
0x11100040112000401130004011400040115000401160004011700040100010401;
0x101010401090104010a0104010b0104010c0104010d0104010e0104010f010401;
0x11001040111010401120104011301040114010401150104011601040117010401;
0x10002040101020401090204010a0204010b0204010c0204010d0204010e020401;
0x10f02040110020401110204011202040113020401140204011502040116020401;
0x1170204010003040101030401090304010a0304010b0304010c0304010d030401;
0x10e0304010f030401100304011103040112030401130304011403040115030401;
0x1160304011703040100040401010404010204040108040401090404010a040401;
0x10b0404010c0404010d0404010e0404010f040401100404011104040112040401;
0x11304040114040401150404011604040117040401000504010105040102050401;
0x108050401090504010a0504010b0504010c0504010d0504010e0504010f050401;
0x11005040111050401120504011305040114050401150504011605040117050401;
0x10006040101060401020604010306040104060401050604010606040107060401;
0x108060401090604010a0604010b0604010c0604010d0604010e0604010f060401;
0x11006040111060401120604011306040114060401150604011606040117060401;
0x10007040101070401020704010307040104070401050704010607040107070401;
0x108070401090704010a0704010b0704010c0704010d0704010e0704010f070401;
0x11007040111070401120704011307040114070401150704011607040117070401;
0x10000050101000501090005010a0005010b0005010c0005010d0005010e000501;
0x10f00050110000501110005011200050113000501140005011500050116000501;
0x117000501000105010a0105010b0105010c0105010d0105010e0105010f010501;
0x11001050111010501120105011301050114010501150105011601050117010501;
0x1000205010a0205010b0205010c0205010d0205010e0205010f02050110020501;
0x11102050112020501130205011402050115020501160205011702050100030501;
0x101030501090305010a0305010b0305010c0305010d0305010e0305010f030501;
0x11003050111030501120305011303050114030501150305011603050117030501;
0x10004050101040501090405010a0405010b0405010c0405010d0405010e040501;
0x10f04050110040501110405011204050113040501140405011504050116040501;
0x1170405010005050101050501090505010a0505010b0505010c0505010d050501;
0x10e0505010f050501100505011105050112050501130505011405050115050501;
0x1160505011705050100060501010605010206050108060501090605010a060501;
0x10b0605010c0605010d0605010e0605010f060501100605011106050112060501;
0x11306050114060501150605011606050117060501000705010107050102070501;
0x1030705010407050105070501060705010707050108070501090705010a070501;
0x10b0705010c0705010d0705010e0705010f070501100705011107050112070501;
0x11307050114070501150705011607050117070501000006010a0006010b000601;
0x10c0006010d0006010e0006010f00060110000601110006011200060113000601;
0x114000601150006011600060117000601000106010a0106010b0106010c010601;
0x10d0106010e0106010f0106011001060111010601120106011301060114010601;
0x1150106011601060117010601000206010a0206010b0206010c0206010d020601;
0x10e0206010f020601100206011102060112020601130206011402060115020601;
0x11602060117020601000306010a0306010b0306010c0306010d0306010e030601;
0x10f03060110030601110306011203060113030601140306011503060116030601;
0x1170306010004060101040601090406010a0406010b0406010c0406010d040601;
0x10e0406010f040601100406011104060115040601160406011704060100050601;
0x101050601090506010a0506010b0506010c0506010d0506010e0506010f050601;
0x11005060111050601150506011605060117050601000606010106060102060601;
0x108060601090606010a0606010b0606010c0606010d0606010e0606010f060601;
0x11006060116060601170606010007060101070601020706010307060107070601;
0x108070601090706010a0706010b0706010c0706010d0706010e0706010f070601;
0x1100706011607060117070601000007010a0007010b0007010c0007010d000701;
0x10e0007010f000701100007011100070112000701130007011400070115000701;
0x11600070117000701000107010a0107010b0107010c0107010d0107010e010701;
0x10f01070110010701110107011201070113010701140107011501070116010701;
0x117010701000207010a0207010b0207010c0207010d0207010e0207010f020701;
0x11002070111020701150207011602070117020701000307010a0307010b030701;
0x10c0307010d0307010e0307010f03070110030701160307011703070100040701;
0x10a0407010b0407010c0407010d0407010e0407010f0407011704070100050701;
0x101050701090507010a0507010b0507010c0507010d0507010e0507010f050701;
0x1160507011705070100060701010607010206070108060701090607010a060701;
0x10b0607010c0607010d0607010e0607010f060701160607011706070100070701;
0x1010707010207070103070701070707010b0707010c0707010d0707010e070701;
0x10f0707011607070117070701000008010a0008010b0008010c0008010d000801;
0x10e0008010f000801100008011100080112000801130008011400080115000801;
0x11600080117000801000108010a0108010b0108010c0108010d0108010e010801;
0x10f010801100108011601080117010801000208010a0208010b0208010c020801;
0x10d0208010e0208010f02080117020801000308010a0308010b0308010c030801;
0x10d0308010e0308010f030801170308010004080101040801090408010a040801;
0x10b0408010c0408010d0408010e0408010f040801170408010005080101050801;
0x1090508010a0508010b0508010c0508010d0508010e0508011605080117050801;
0x100060801010608010206080108060801090608010a0608010b0608010c060801;
0x10d0608010e060801160608011706080100070801010708010207080103070801;
0x10c0708010d0708010e0708011607080117070801000009010100090109000901;
0x10a0009010b0009010c0009010d0009010e0009010f0009011000090111000901;
0x11500090116000901170009010007090101070901020709010307090104070901;
0x105070901060709010c0709010d0709010e07090100000a0101000a0109000a01;
0x10a000a010b000a010c000a010d000a010e000a010f000a0110000a0116000a01;
0x117000a0100070a0101070a0102070a0103070a0104070a0105070a0106070a01;
0x10c070a010d070a010e070a010b000b010d000b010f000b0117000b0101070b01;
0x103070b0105070b010b070b010d070b0152474241000400000000000000000000;
0x1847e87ff847e87ff847e87ff847e87ff847e87ff847e87ff847e87ff847e87ff;
0x1847e87ff847e87ff847e87ff847e87ff847e87ff847e87ff847e87ff847e87ff;
0x1847e87ff847e87ff847e87ff847e87ff847e87ff847e87ff847e87ff847e87ff;
0x1847e87ff847e87ff847e87ff847e87ff847e87ff847e87ff847e87ff847e87ff;
0x1847e87ff847e87ff847e87ff847e87ff847e87ff847e87ff847e87ff847e87ff;
0x1847e87ff847e87ff847e87ff847e87ff847e87ff847e87ff847e87ff847e87ff;
0x1847e87ff847e87ff847e87ff847e87ff847e87ff847e87ff847e87ff847e87ff;
0x1847e87ff847e87ff847e87ff847e87ff847e87ff847e87ff847e87ff847e87ff;
0x1847e87ff847e87ff847e87ff847e87ff847e87ff847e87ff847e87ff847e87ff;
0x1847e87ff847e87ff847e87ff847e87ff847e87ff847e87ff847e87ff847e87ff;
0x1847e87ff847e87ff847e87ff847e87ff847e87ff847e87ff847e87ff847e87ff;
0x1847e87ff847e87ff847e87ff847e87ff847e87ff847e87ff847e87ff847e87ff;
0x1847e87ff847e87ff847e87ff847e87ff847e87ff847e87ff847e87ff847e87ff;
0x1847e87ff847e87ff847e87ff847e87ff847e87ff847e87ff847e87ff847e87ff;
0x1847e87ff847e87ff847e87ff847e87ff847e87ff847e87ff847e87ff847e87ff;
0x1847e87ff847e87ff847e87ff847e87ff847e87ff847e87ff847e87ff847e87ff;
0x1847e87ff847e87ff847e87ff847e87ff847e87ff847e87ff847e87ff847e87ff;
0x1847e87ff847e87ff847e87ff847e87ff847e87ff847e87ff847e87ff847e87ff;
0x1847e87ff847e87ff847e87ff847e87ff847e87ff847e87ff847e87ff847e87ff;
0x1847e87ff847e87ff847e87ff847e87ff847e87ff847e87ff847e87ff847e87ff;
0x1847e87ff847e87ff847e87ff847e87ff847e87ff847e87ff847e87ff847e87ff;
0x1847e87ff847e87ff847e87ff847e87ff847e87ff847e87ff847e87ff847e87ff;
0x1847e87ff847e87ff847e87ff847e87ff847e87ff847e87ff847e87ff847e87ff;
0x1847e87ff847e87ff000000000000000000000000000000000000000000000000;
0x10000000000000000000000000000000000000000000000000000000000000000;
0x10000000000000000000000000000000000000000000000000000000000000000;
0x10000000000000000000000000000000000000000000000000000000000000000;
0x10000000000000000000000000000000000000000000000000000000000000000;
0x10000000000000000000000000000000000000000000000000000000000000000;
0x10000000000000000000000000000000000000000000000000000000000000000;
0x10000000000000000000000000000000000000000000000000000000000000000;
0x100000000000000000000000000000000000000000000000000000000].
(** redeclipse/prefabs/castle/castle_wall_section_tjoint.vox (10892 bytes) *)
Definition vox_castle_castle_wall_section_tjoint : list Z := [
0x1564f5820960000004d41494e00000000782a000053495a450c00000000000000;
0x118000000100000000c00000058595a4948260000000000009109000000000001;
0x10100000102000001030000010400000105000001060000010700000108000001;
0x1090000010a0000010b0000010c0000010d0000010e0000010f00000110000001;
0x11100000112000001130000011400000115000001160000011700000100010001;
0x10101000102010001030100010401000105010001060100010701000108010001;
0x1090100010a0100010b0100010c0100010d0100010e0100010f01000110010001;
0x11101000112010001130100011401000115010001160100011701000100020001;
0x10102000102020001030200010402000105020001060200010702000108020001;
0x1090200010a0200010b0200010c0200010d0200010e0200010f02000110020001;
0x11102000112020001130200011402000115020001160200011702000100030001;
0x10103000102030001030300010403000105030001060300010703000108030001;
0x1090300010a0300010b0300010c0300010d0300010e0300010f03000110030001;
0x11103000112030001130300011403000115030001160300011703000100040001;
0x10104000102040001030400010404000105040001060400010704000108040001;
0x1090400010a0400010b0400010c0400010d0400010e0400010f04000110040001;
0x11104000112040001130400011404000115040001160400011704000100050001;
0x10105000102050001030500010405000105050001060500010705000108050001;
0x1090500010a0500010b0500010c0500010d0500010e0500010f05000110050001;
0x11105000112050001130500011405000115050001160500011705000100060001;
0x10106000102060001030600010406000105060001060600010706000108060001;
0x1090600010a0600010b0600010c0600010d0600010e0600010f06000110060001;
0x11106000112060001130600011406000115060001160600011706000100070001;
0x10107000102070001030700010407000105070001060700010707000108070001;
0x1090700010a0700010b0700010c0700010d0700010e0700010f07000110070001;
0x11107000112070001130700011407000115070001160700011707000108080001;
0x1090800010a0800010b0800010c0800010d0800010e0800010f08000108090001;
0x1090900010a0900010b0900010c0900010d0900010e0900010f090001080a0001;
0x1090a00010a0a00010b0a00010c0a00010d0a00010e0a00010f0a0001080b0001;
0x1090b00010a0b00010b0b00010c0b00010d0b00010e0b00010f0b0001080c0001;
0x1090c00010a0c00010b0c00010c0c00010d0c00010e0c00010f0c0001080d0001;
0x1090d00010a0d00010b0d00010c0d00010d0d00010e0d00010f0d0001080e0001;
0x1090e00010a0e00010b0e00010c0e00010d0e00010e0e00010f0e0001080f0001;
0x1090f00010a0f00010b0f00010c0f00010d0f00010e0f00010f0f000100000101;
0x10100010102000101030001010400010105000101060001010700010108000101;
0x1090001010a0001010b0001010c0001010d0001010e0001010f00010110000101;
0x11100010112000101130001011400010115000101160001011700010100010101;
0x10101010102010101030101010401010105010101060101010701010108010101;
0x1090101010a0101010b0101010c0101010d0101010e0101010f01010110010101;
0x11101010112010101130101011401010115010101160101011701010100020101;
0x10102010102020101030201010402010105020101060201010702010108020101;
0x1090201010a0201010b0201010c0201010d0201010e0201010f02010110020101;
0x11102010112020101130201011402010115020101160201011702010100030101;
0x10103010102030101030301010403010105030101060301010703010108030101;
0x1090301010a0301010b0301010c0301010d0301010e0301010f03010110030101;
0x11103010112030101130301011403010115030101160301011703010100040101;
0x10104010102040101030401010404010105040101060401010704010108040101;
0x1090401010a0401010b0401010c0401010d0401010e0401010f04010110040101;
0x11104010112040101130401011404010115040101160401011704010100050101;
0x10105010102050101030501010405010105050101060501010705010108050101;
0x1090501010a0501010b0501010c0501010d0501010e0501010f05010110050101;
0x11105010112050101130501011405010115050101160501011705010100060101;
0x10106010102060101030601010406010105060101060601010706010108060101;
0x1090601010a0601010b0601010c0601010d0601010e0601010f06010110060101;
0x11106010112060101130601011406010115060101160601011706010100070101;
0x10107010102070101030701010407010105070101060701010707010108070101;
0x1090701010a0701010b0701010c0701010d0701010e0701010f07010110070101;
0x11107010112070101130701011407010115070101160701011707010108080101;
0x1090801010a0801010b0801010c0801010d0801010e0801010f08010108090101;
0x1090901010a0901010b0901010c0901010d0901010e0901010f090101080a0101;
0x1090a01010a0a01010b0a01010c0a01010d0a01010e0a01010f0a0101080b0101;
0x1090b01010a0b01010b0b01010c0b01010d0b01010e0b01010f0b0101080c0101;
0x1090c01010a0c01010b0c01010c0c01010d0c01010e0c01010f0c0101080d0101;
0x1090d01010a0d01010b0d01010c0d01010d0d01010e0d01010f0d0101080e0101;
0x1090e01010a0e01010b0e01010c0e01010d0e01010e0e01010f0e0101080f0101;
0x1090f01010a0f01010b0f01010c0f01010d0f01010e0f01010f0f010100000201;
0x10100020102000201030002010400020105000201060002010700020108000201;
0x1090002010a0002010b0002010c0002010d0002010e0002010f00020110000201;
0x11100020112000201130002011400020115000201160002011700020100010201;
0x10101020102010201030102010401020105010201060102010701020108010201;
0x1090102010a0102010b0102010c0102010d0102010e0102010f01020110010201;
0x11101020112010201130102011401020115010201160102011701020100020201;
0x10102020102020201030202010402020105020201060202010702020108020201;
0x1090202010a0202010b0202010c0202010d0202010e0202010f02020110020201;
0x11102020112020201130202011402020115020201160202011702020100030201;
0x10103020102030201030302010403020105030201060302010703020108030201;
0x1090302010a0302010b0302010c0302010d0302010e0302010f03020110030201;
0x11103020112030201130302011403020115030201160302011703020100040201;
0x10104020102040201030402010404020105040201060402010704020108040201;
0x1090402010a0402010b0402010c0402010d0402010e0402010f04020110040201;
0x11104020112040201130402011404020115040201160402011704020100050201;
0x10105020102050201030502010405020105050201060502010705020108050201;
0x1090502010a0502010b0502010c0502010d0502010e0502010f05020110050201;
0x11105020112050201130502011405020115050201160502011705020100060201;
0x10106020102060201030602010406020105060201060602010706020108060201;
0x1090602010a0602010b0602010c0602010d0602010e0602010f06020110060201;
0x11106020112060201130602011406020115060201160602011706020100070201;
0x10107020102070201030702010407020105070201060702010707020108070201;
0x1090702010a0702010b0702010c0702010d0702010e0702010f07020110070201;
0x11107020112070201130702011407020115070201160702011707020108080201;
0x1090802010a0802010b0802010c0802010d0802010e0802010f08020108090201;
0x1090902010a0902010b0902010c0902010d0902010e0902010f090201080a0201;
0x1090a02010a0a02010b0a02010c0a02010d0a02010e0a02010f0a0201080b0201;
0x1090b02010a0b02010b0b02010c0b02010d0b02010e0b02010f0b0201080c0201;
0x1090c02010a0c02010b0c02010c0c02010d0c02010e0c02010f0c0201080d0201;
0x1090d02010a0d02010b0d02010c0d02010d0d02010e0d02010f0d0201080e0201;
0x1090e02010a0e02010b0e02010c0e02010d0e02010e0e02010f0e0201080f0201;
0x1090f02010a0f02010b0f02010c0f02010d0f02010e0f02010f0f020100000301;
0x10100030102000301030003010400030105000301060003010700030108000301;
0x1090003010a0003010b0003010c0003010d0003010e0003010f00030110000301;
0x11100030112000301130003011400030115000301160003011700030100010301;
0x10101030102010301030103010401030105010301060103010701030108010301;
0x1090103010a0103010b0103010c0103010d0103010e0103010f01030110010301;
0x11101030112010301130103011401030115010301160103011701030100020301;
0x10102030102020301030203010402030105020301060203010702030108020301;
0x1090203010a0203010b0203010c0203010d0203010e0203010f02030110020301;
0x11102030112020301130203011402030115020301160203011702030100030301;
0x10103030102030301030303010403030105030301060303010703030108030301;
0x1090303010a0303010b0303010c0303010d0303010e0303010f03030110030301;
0x11103030112030301130303011403030115030301160303011703030100040301;
0x10104030102040301030403010404030105040301060403010704030108040301;
0x1090403010a0403010b0403010c0403010d0403010e0403010f04030110040301;
0x11104030112040301130403011404030115040301160403011704030100050301;
0x10105030102050301030503010405030105050301060503010705030108050301;
0x1090503010a0503010b0503010c0503010d0503010e0503010f05030110050301;
0x11105030112050301130503011405030115050301160503011705030100060301;
0x10106030102060301030603010406030105060301060603010706030108060301;
0x1090603010a0603010b0603010c0603010d0603010e0603010f06030110060301;
0x11106030112060301130603011406030115060301160603011706030100070301;
0x10107030102070301030703010407030105070301060703010707030108070301;
0x1090703010a0703010b0703010c0703010d0703010e0703010f07030110070301;
0x11107030112070301130703011407030115070301160703011707030108080301;
0x1090803010a0803010b0803010c0803010d0803010e0803010f08030108090301;
0x1090903010a0903010b0903010c0903010d0903010e0903010f090301080a0301;
0x1090a03010a0a03010b0a03010c0a03010d0a03010e0a03010f0a0301080b0301;
0x1090b03010a0b03010b0b03010c0b03010d0b03010e0b03010f0b0301080c0301;
0x1090c03010a0c03010b0c03010c0c03010d0c03010e0c03010f0c0301080d0301;
0x1090d03010a0d03010b0d03010c0d03010d0d03010e0d03010f0d0301080e0301;
0x1090e03010a0e03010b0e03010c0e03010d0e03010e0e03010f0e0301080f0301;
0x1090f03010a0f03010b0f03010c0f03010d0f03010e0f03010f0f030100000401;
0x10100040102000401030004010400040105000401060004010700040108000401;
0x1090004010a0004010b0004010c0004010d0004010e0004010f00040110000401;
0x11100040112000401130004011400040115000401160004011700040100010401;
0x10101040102010401030104010401040105010401060104010701040108010401;
0x1090104010a0104010b0104010c0104010d0104010e0104010f01040110010401;
0x11101040112010401130104011401040115010401160104011701040100020401;
0x10102040102020401030204010402040105020401060204010702040108020401;
0x1090204010a0204010b0204010c0204010d0204010e0204010f02040110020401;
0x11102040112020401130204011402040115020401160204011702040100030401;
0x10103040102030401030304010403040105030401060304010703040108030401;
0x1090304010a0304010b0304010c0304010d0304010e0304010f03040110030401;
0x11103040112030401130304011403040115030401160304011703040100040401;
0x10104040102040401030404010404040105040401060404010704040108040401;
0x1090404010a0404010b0404010c0404010d0404010e0404010f04040110040401;
0x11104040112040401130404011404040115040401160404011704040100050401;
0x10105040102050401030504010405040105050401060504010705040108050401;
0x1090504010a0504010b0504010c0504010d0504010e0504010f05040110050401;
0x11105040112050401130504011405040115050401160504011705040100060401;
0x10106040102060401030604010406040105060401060604010706040108060401;
0x1090604010a0604010b0604010c0604010d0604010e0604010f06040110060401;
0x11106040112060401130604011406040115060401160604011706040100070401;
0x10107040102070401030704010407040105070401060704010707040108070401;
0x1090704010a0704010b0704010c0704010d0704010e0704010f07040110070401;
0x11107040112070401130704011407040115070401160704011707040108080401;
0x1090804010a0804010b0804010c0804010d0804010e0804010f08040108090401;
0x1090904010a0904010b0904010c0904010d0904010e0904010f090401080a0401;
0x1090a04010a0a04010b0a04010c0a04010d0a04010e0a04010f0a0401080b0401;
0x1090b04010a0b04010b0b04010c0b04010d0b04010e0b04010f0b0401080c0401;
0x1090c04010a0c04010b0c04010c0c04010d0c04010e0c04010f0c0401080d0401;
0x1090d04010a0d04010b0d04010c0d04010d0d04010e0d04010f0d0401080e0401;
0x1090e04010a0e04010b0e04010c0e04010d0e04010e0e04010f0e0401080f0401;
0x1090f04010a0f04010b0f04010c0f04010d0f04010e0f04010f0f040100000501;
0x10100050102000501030005010400050105000501060005010700050108000501;
0x1090005010a0005010b0005010c0005010d0005010e0005010f00050110000501;
0x11100050112000501130005011400050115000501160005011700050100010501;
0x10101050102010501030105010401050105010501060105010701050108010501;
0x1090105010a0105010b0105010c0105010d0105010e0105010f01050110010501;
0x11101050112010501130105011401050115010501160105011701050100020501;
0x10102050102020501030205010402050105020501060205010702050108020501;
0x1090205010a0205010b0205010c0205010d0205010e0205010f02050110020501;
0x11102050112020501130205011402050115020501160205011702050100030501;
0x10103050102030501030305010403050105030501060305010703050108030501;
0x1090305010a0305010b0305010c0305010d0305010e0305010f03050110030501;
0x11103050112030501130305011403050115030501160305011703050100040501;
0x10104050102040501030405010404050105040501060405010704050108040501;
0x1090405010a0405010b0405010c0405010d0405010e0405010f04050110040501;
0x11104050112040501130405011404050115040501160405011704050100050501;
0x10105050102050501030505010405050105050501060505010705050108050501;
0x1090505010a0505010b0505010c0505010d0505010e0505010f05050110050501;
0x11105050112050501130505011405050115050501160505011705050100060501;
0x10106050102060501030605010406050105060501060605010706050108060501;
0x1090605010a0605010b0605010c0605010d0605010e0605010f06050110060501;
0x11106050112060501130605011406050115060501160605011706050100070501;
0x10107050102070501030705010407050105070501060705010707050108070501;
0x1090705010a0705010b0705010c0705010d0705010e0705010f07050110070501;
0x11107050112070501130705011407050115070501160705011707050108080501;
0x1090805010a0805010b0805010c0805010d0805010e0805010f08050108090501;
0x1090905010a0905010b0905010c0905010d0905010e0905010f090501080a0501;
0x1090a05010a0a05010b0a05010c0a05010d0a05010e0a05010f0a0501080b0501;
0x1090b05010a0b05010b0b05010c0b05010d0b05010e0b05010f0b0501080c0501;
0x1090c05010a0c05010b0c05010c0c05010d0c05010e0c05010f0c0501080d0501;
0x1090d05010a0d05010b0d05010c0d05010d0d05010e0d05010f0d0501080e0501;
0x1090e05010a0e05010b0e05010c0e05010d0e05010e0e05010f0e0501080f0501;
0x1090f05010a0f05010b0f05010c0f05010d0f05010e0f05010f0f050100000601;
0x10100060102000601030006010400060105000601060006010700060108000601;
0x1090006010a0006010b0006010c0006010d0006010e0006010f00060110000601;
0x11100060112000601130006011400060115000601160006011700060100010601;
0x10101060102010601030106010401060105010601060106010701060108010601;
0x1090106010a0106010b0106010c0106010d0106010e0106010f01060110010601;
0x11101060112010601130106011401060115010601160106011701060100020601;
0x10102060102020601030206010402060105020601060206010702060108020601;
0x1090206010a0206010b0206010c0206010d0206010e0206010f02060110020601;
0x11102060112020601130206011402060115020601160206011702060100030601;
0x10103060102030601030306010403060105030601060306010703060108030601;
0x1090306010a0306010b0306010c0306010d0306010e0306010f03060110030601;
0x11103060112030601130306011403060115030601160306011703060100040601;
0x10104060102040601030406010404060105040601060406010704060108040601;
0x1090406010a0406010b0406010c0406010d0406010e0406010f04060110040601;
0x11104060112040601130406011404060115040601160406011704060100050601;
0x10105060102050601030506010405060105050601060506010705060108050601;
0x1090506010a0506010b0506010c0506010d0506010e0506010f05060110050601;
0x11105060112050601130506011405060115050601160506011705060100060601;
0x10106060102060601030606010406060105060601060606010706060108060601;
0x1090606010a0606010b0606010c0606010d0606010e0606010f06060110060601;
0x11106060112060601130606011406060115060601160606011706060100070601;
0x10107060102070601030706010407060105070601060706010707060108070601;
0x1090706010a0706010b0706010c0706010d0706010e0706010f07060110070601;
0x11107060112070601130706011407060115070601160706011707060108080601;
0x1090806010a0806010b0806010c0806010d0806010e0806010f08060108090601;
0x1090906010a0906010b0906010c0906010d0906010e0906010f090601080a0601;
0x1090a06010a0a06010b0a06010c0a06010d0a06010e0a06010f0a0601080b0601;
0x1090b06010a0b06010b0b06010c0b06010d0b06010e0b06010f0b0601080c0601;
0x1090c06010a0c06010b0c06010c0c06010d0c06010e0c06010f0c0601080d0601;
0x1090d06010a0d06010b0d06010c0d06010d0d06010e0d06010f0d0601080e0601;
0x1090e06010a0e06010b0e06010c0e06010d0e06010e0e06010f0e0601080f0601;
0x1090f06010a0f06010b0f06010c0f06010d0f06010e0f06010f0f060100000701;
0x10100070102000701030007010400070105000701060007010700070108000701;
0x1090007010a0007010b0007010c0007010d0007010e0007010f00070110000701;
0x11100070112000701130007011400070115000701160007011700070100010701;
0x10101070102010701030107010401070105010701060107010701070108010701;
0x1090107010a0107010b0107010c0107010d0107010e0107010f01070110010701;
0x11101070112010701130107011401070115010701160107011701070100020701;
0x10102070102020701030207010402070105020701060207010702070108020701;
0x1090207010a0207010b0207010c0207010d0207010e0207010f02070110020701;
0x11102070112020701130207011402070115020701160207011702070100030701;
0x10103070102030701030307010403070105030701060307010703070108030701;
0x1090307010a0307010b0307010c0307010d0307010e0307010f03070110030701;
0x11103070112030701130307011403070115030701160307011703070100040701;
0x10104070102040701030407010404070105040701060407010704070108040701;
0x1090407010a0407010b0407010c0407010d0407010e0407010f04070110040701;
0x11104070112040701130407011404070115040701160407011704070100050701;
0x10105070102050701030507010405070105050701060507010705070108050701;
0x1090507010a0507010b0507010c0507010d0507010e0507010f05070110050701;
0x11105070112050701130507011405070115050701160507011705070100060701;
0x10106070102060701030607010406070105060701060607010706070108060701;
0x1090607010a0607010b0607010c0607010d0607010e0607010f06070110060701;
0x11106070112060701130607011406070115060701160607011706070100070701;
0x10107070102070701030707010407070105070701060707010707070108070701;
0x1090707010a0707010b0707010c0707010d0707010e0707010f07070110070701;
0x11107070112070701130707011407070115070701160707011707070108080701;
0x1090807010a0807010b0807010c0807010d0807010e0807010f08070108090701;
0x1090907010a0907010b0907010c0907010d0907010e0907010f090701080a0701;
0x1090a07010a0a07010b0a07010c0a07010d0a07010e0a07010f0a0701080b0701;
0x1090b07010a0b07010b0b07010c0b07010d0b07010e0b07010f0b0701080c0701;
0x1090c07010a0c07010b0c07010c0c07010d0c07010e0c07010f0c0701080d0701;
0x1090d07010a0d07010b0d07010c0d07010d0d07010e0d07010f0d0701080e0701;
0x1090e07010a0e07010b0e07010c0e07010d0e07010e0e07010f0e0701080f0701;
0x1090f07010a0f07010b0f07010c0f07010d0f07010e0f07010f0f070100000801;
0x10100080102000801030008010400080105000801060008010700080108000801;
0x1090008010a0008010b0008010c0008010d0008010e0008010f00080110000801;
0x11100080112000801130008011400080115000801160008011700080100010801;
0x10101080102010801030108010401080105010801060108010701080108010801;
0x1090108010a0108010b0108010c0108010d0108010e0108010f01080110010801;
0x11101080112010801130108011401080115010801160108011701080100020801;
0x10102080102020801030208010402080105020801060208010702080108020801;
0x1090208010a0208010b0208010c0208010d0208010e0208010f02080110020801;
0x11102080112020801130208011402080115020801160208011702080100030801;
0x10103080102030801030308010403080105030801060308010703080108030801;
0x1090308010a0308010b0308010c0308010d0308010e0308010f03080110030801;
0x11103080112030801130308011403080115030801160308011703080100040801;
0x10104080102040801030408010404080105040801060408010704080108040801;
0x1090408010a0408010b0408010c0408010d0408010e0408010f04080110040801;
0x11104080112040801130408011404080115040801160408011704080100050801;
0x10105080102050801030508010405080105050801060508010705080108050801;
0x1090508010a0508010b0508010c0508010d0508010e0508010f05080110050801;
0x11105080112050801130508011405080115050801160508011705080100060801;
0x10106080102060801030608010406080105060801060608010706080108060801;
0x1090608010a0608010b0608010c0608010d0608010e0608010f06080110060801;
0x11106080112060801130608011406080115060801160608011706080100070801;
0x10107080102070801030708010407080105070801060708010707080108070801;
0x1090708010a0708010b0708010c0708010d0708010e0708010f07080110070801;
0x11107080112070801130708011407080115070801160708011707080108080801;
0x1090808010a0808010b0808010c0808010d0808010e0808010f08080108090801;
0x1090908010a0908010b0908010c0908010d0908010e0908010f090801080a0801;
0x1090a08010a0a08010b0a08010c0a08010d0a08010e0a08010f0a0801080b0801;
0x1090b08010a0b08010b0b08010c0b08010d0b08010e0b08010f0b0801080c0801;
0x1090c08010a0c08010b0c08010c0c08010d0c08010e0c08010f0c0801080d0801;
0x1090d08010a0d08010b0d08010c0d08010d0d08010e0d08010f0d0801080e0801;
0x1090e08010a0e08010b0e08010c0e08010d0e08010e0e08010f0e0801080f0801;
0x1090f08010a0f08010b0f08010c0f08010d0f08010e0f08010f0f080100000901;
0x10100090102000901030009010400090105000901060009010700090108000901;
0x1090009010a0009010b0009010c0009010d0009010e0009010f00090110000901;
0x11100090112000901130009011400090115000901160009011700090100070901;
0x10107090102070901030709010407090105070901060709010707090108070901;
0x10f07090110070901110709011207090113070901140709011507090116070901;
0x117070901080809010f080901080909010f090901080a09010f0a0901080b0901;
0x10f0b0901080c09010f0c0901080d09010f0d0901080e09010f0e0901080f0901;
0x10f0f090100000a0101000a0102000a0103000a0104000a0105000a0106000a01;
0x107000a0108000a0109000a010a000a010b000a010c000a010d000a010e000a01;
0x10f000a0110000a0111000a0112000a0113000a0114000a0115000a0116000a01;
0x117000a0100070a0101070a0102070a0103070a0104070a0105070a0106070a01;
0x107070a0108070a010f070a0110070a0111070a0112070a0113070a0114070a01;
0x115070a0116070a0117070a0108080a010f080a0108090a010f090a01080a0a01;
0x10f0a0a01080b0a010f0b0a01080c0a010f0c0a01080d0a010f0d0a01080e0a01;
0x10f0e0a01080f0a010f0f0a0101000b0103000b0105000b0107000b0109000b01;
0x10b000b010d000b010f000b0111000b0113000b0115000b0117000b0101070b01;
0x103070b0105070b0107070b010f070b0111070b0113070b0115070b0117070b01;
0x108090b010f090b01080b0b010f0b0b01080d0b010f0d0b01080f0b010f0f0b01;
0x152474241000400000000000000000000847e87ff847e87ff847e87ff847e87ff;
0x1847e87ff847e87ff847e87ff847e87ff847e87ff847e87ff847e87ff847e87ff;
0x1847e87ff847e87ff847e87ff847e87ff847e87ff847e87ff847e87ff847e87ff;
0x1847e87ff847e87ff847e87ff847e87ff847e87ff847e87ff847e87ff847e87ff;
0x1847e87ff847e87ff847e87ff847e87ff847e87ff847e87ff847e87ff847e87ff;
0x1847e87ff847e87ff847e87ff847e87ff847e87ff847e87ff847e87ff847e87ff;
0x1847e87ff847e87ff847e87ff847e87ff847e87ff847e87ff847e87ff847e87ff;
0x1847e87ff847e87ff847e87ff847e87ff847e87ff847e87ff847e87ff847e87ff;
0x1847e87ff847e87ff847e87ff847e87ff847e87ff847e87ff847e87ff847e87ff;
0x1847e87ff847e87ff847e87ff847e87ff847e87ff847e87ff847e87ff847e87ff;
0x1847e87ff847e87ff847e87ff847e87ff847e87ff847e87ff847e87ff847e87ff;
0x1847e87ff847e87ff847e87ff847e87ff847e87ff847e87ff847e87ff847e87ff;
0x1847e87ff847e87ff847e87ff847e87ff847e87ff847e87ff847e87ff847e87ff;
0x1847e87ff847e87ff847e87ff847e87ff847e87ff847e87ff847e87ff847e87ff;
0x1847e87ff847e87ff847e87ff847e87ff847e87ff847e87ff847e87ff847e87ff;
0x1847e87ff847e87ff847e87ff847e87ff847e87ff847e87ff847e87ff847e87ff;
0x1847e87ff847e87ff847e87ff847e87ff847e87ff847e87ff847e87ff847e87ff;
0x1847e87ff847e87ff847e87ff847e87ff847e87ff847e87ff847e87ff847e87ff;
0x1847e87ff847e87ff847e87ff847e87ff847e87ff847e87ff847e87ff847e87ff;
0x1847e87ff847e87ff847e87ff847e87ff847e87ff847e87ff847e87ff847e87ff;
0x1847e87ff847e87ff847e87ff847e87ff847e87ff847e87ff847e87ff847e87ff;
0x1847e87ff847e87ff847e87ff847e87ff847e87ff847e87ff847e87ff847e87ff;
0x1847e87ff847e87ff847e87ff847e87ff847e87ff847e87ff847e87ff847e87ff;
0x1847e87ff847e87ff847e87ff847e87ff847e87ff847e87ff847e87ff847e87ff;
0x1847e87ff847e87ff847e87ff847e87ff847e87ff847e87ff847e87ff847e87ff;
0x1847e87ff847e87ff847e87ff847e87ff847e87ff847e87ff847e87ff00000000;
0x10000000000000000000000000000000000000000000000000000000000000000;
0x10000000000000000000000000000000000000000000000000000000000000000;
0x10000000000000000000000000000000000000000000000000000000000000000;
0x10000000000000000000000000000000000000000000000000000000000000000;
0x10000000000000000000000000000000000000000000000000000000000000000;
0x10000000000000000000000000000000000000000000000000000000000000000;
0x1000000000000000000000000].
(** redeclipse/prefabs/castle/castle_wall_section_x.vox (13296 bytes) *)
Definition vox_castle_castle_wall_section_x : list Z := [
0x1564f5820960000004d41494e00000000dc33000053495a450c00000000000000;
0x118000000180000000c00000058595a49ac2f000000000000ea0b000008000001;
0x1090000010a0000010b0000010c0000010d0000010e0000010f00000108010001;
0x1090100010a0100010b0100010c0100010d0100010e0100010f01000108020001;
0x1090200010a0200010b0200010c0200010d0200010e0200010f02000108030001;
0x1090300010a0300010b0300010c0300010d0300010e0300010f03000108040001;
0x1090400010a0400010b0400010c0400010d0400010e0400010f04000108050001;
0x1090500010a0500010b0500010c0500010d0500010e0500010f05000108060001;
0x1090600010a0600010b0600010c0600010d0600010e0600010f06000108070001;
0x1090700010a0700010b0700010c0700010d0700010e0700010f07000100080001;
0x10108000102080001030800010408000105080001060800010708000108080001;
0x1090800010a0800010b0800010c0800010d0800010e0800010f08000110080001;
0x11108000112080001130800011408000115080001160800011708000100090001;
0x10109000102090001030900010409000105090001060900010709000108090001;
0x1090900010a0900010b0900010c0900010d0900010e0900010f09000110090001;
0x111090001120900011309000114090001150900011609000117090001000a0001;
0x1010a0001020a0001030a0001040a0001050a0001060a0001070a0001080a0001;
0x1090a00010a0a00010b0a00010c0a00010d0a00010e0a00010f0a0001100a0001;
0x1110a0001120a0001130a0001140a0001150a0001160a0001170a0001000b0001;
0x1010b0001020b0001030b0001040b0001050b0001060b0001070b0001080b0001;
0x1090b00010a0b00010b0b00010c0b00010d0b00010e0b00010f0b0001100b0001;
0x1110b0001120b0001130b0001140b0001150b0001160b0001170b0001000c0001;
0x1010c0001020c0001030c0001040c0001050c0001060c0001070c0001080c0001;
0x1090c00010a0c00010b0c00010c0c00010d0c00010e0c00010f0c0001100c0001;
0x1110c0001120c0001130c0001140c0001150c0001160c0001170c0001000d0001;
0x1010d0001020d0001030d0001040d0001050d0001060d0001070d0001080d0001;
0x1090d00010a0d00010b0d00010c0d00010d0d00010e0d00010f0d0001100d0001;
0x1110d0001120d0001130d0001140d0001150d0001160d0001170d0001000e0001;
0x1010e0001020e0001030e0001040e0001050e0001060e0001070e0001080e0001;
0x1090e00010a0e00010b0e00010c0e00010d0e00010e0e00010f0e0001100e0001;
0x1110e0001120e0001130e0001140e0001150e0001160e0001170e0001000f0001;
0x1010f0001020f0001030f0001040f0001050f0001060f0001070f0001080f0001;
0x1090f00010a0f00010b0f00010c0f00010d0f00010e0f00010f0f0001100f0001;
0x1110f0001120f0001130f0001140f0001150f0001160f0001170f000108100001;
0x1091000010a1000010b1000010c1000010d1000010e1000010f10000108110001;
0x1091100010a1100010b1100010c1100010d1100010e1100010f11000108120001;
0x1091200010a1200010b1200010c1200010d1200010e1200010f12000108130001;
0x1091300010a1300010b1300010c1300010d1300010e1300010f13000108140001;
0x1091400010a1400010b1400010c1400010d1400010e1400010f14000108150001;
0x1091500010a1500010b1500010c1500010d1500010e1500010f15000108160001;
0x1091600010a1600010b1600010c1600010d1600010e1600010f16000108170001;
0x1091700010a1700010b1700010c1700010d1700010e1700010f17000108000101;
0x1090001010a0001010b0001010c0001010d0001010e0001010f00010108010101;
0x1090101010a0101010b0101010c0101010d0101010e0101010f01010108020101;
0x1090201010a0201010b0201010c0201010d0201010e0201010f02010108030101;
0x1090301010a0301010b0301010c0301010d0301010e0301010f03010108040101;
0x1090401010a0401010b0401010c0401010d0401010e0401010f04010108050101;
0x1090501010a0501010b0501010c0501010d0501010e0501010f05010108060101;
0x1090601010a0601010b0601010c0601010d0601010e0601010f06010108070101;
0x1090701010a0701010b0701010c0701010d0701010e0701010f07010100080101;
0x10108010102080101030801010408010105080101060801010708010108080101;
0x1090801010a0801010b0801010c0801010d0801010e0801010f08010110080101;
0x11108010112080101130801011408010115080101160801011708010100090101;
0x10109010102090101030901010409010105090101060901010709010108090101;
0x1090901010a0901010b0901010c0901010d0901010e0901010f09010110090101;
0x111090101120901011309010114090101150901011609010117090101000a0101;
0x1010a0101020a0101030a0101040a0101050a0101060a0101070a0101080a0101;
0x1090a01010a0a01010b0a01010c0a01010d0a01010e0a01010f0a0101100a0101;
0x1110a0101120a0101130a0101140a0101150a0101160a0101170a0101000b0101;
0x1010b0101020b0101030b0101040b0101050b0101060b0101070b0101080b0101;
0x1090b01010a0b01010b0b01010c0b01010d0b01010e0b01010f0b0101100b0101;
0x1110b0101120b0101130b0101140b0101150b0101160b0101170b0101000c0101;
0x1010c0101020c0101030c0101040c0101050c0101060c0101070c0101080c0101;
0x1090c01010a0c01010b0c01010c0c01010d0c01010e0c01010f0c0101100c0101;
0x1110c0101120c0101130c0101140c0101150c0101160c0101170c0101000d0101;
0x1010d0101020d0101030d0101040d0101050d0101060d0101070d0101080d0101;
0x1090d01010a0d01010b0d01010c0d01010d0d01010e0d01010f0d0101100d0101;
0x1110d0101120d0101130d0101140d0101150d0101160d0101170d0101000e0101;
0x1010e0101020e0101030e0101040e0101050e0101060e0101070e0101080e0101;
0x1090e01010a0e01010b0e01010c0e01010d0e01010e0e01010f0e0101100e0101;
0x1110e0101120e0101130e0101140e0101150e0101160e0101170e0101000f0101;
0x1010f0101020f0101030f0101040f0101050f0101060f0101070f0101080f0101;
0x1090f01010a0f01010b0f01010c0f01010d0f01010e0f01010f0f0101100f0101;
0x1110f0101120f0101130f0101140f0101150f0101160f0101170f010108100101;
0x1091001010a1001010b1001010c1001010d1001010e1001010f10010108110101;
0x1091101010a1101010b1101010c1101010d1101010e1101010f11010108120101;
0x1091201010a1201010b1201010c1201010d1201010e1201010f12010108130101;
0x1091301010a1301010b1301010c1301010d1301010e1301010f13010108140101;
0x1091401010a1401010b1401010c1401010d1401010e1401010f14010108150101;
0x1091501010a1501010b1501010c1501010d1501010e1501010f15010108160101;
0x1091601010a1601010b1601010c1601010d1601010e1601010f16010108170101;
0x1091701010a1701010b1701010c1701010d1701010e1701010f17010108000201;
0x1090002010a0002010b0002010c0002010d0002010e0002010f00020108010201;
0x1090102010a0102010b0102010c0102010d0102010e0102010f01020108020201;
0x1090202010a0202010b0202010c0202010d0202010e0202010f02020108030201;
0x1090302010a0302010b0302010c0302010d0302010e0302010f03020108040201;
0x1090402010a0402010b0402010c0402010d0402010e0402010f04020108050201;
0x1090502010a0502010b0502010c0502010d0502010e0502010f05020108060201;
0x1090602010a0602010b0602010c0602010d0602010e0602010f06020108070201;
0x1090702010a0702010b0702010c0702010d0702010e0702010f07020100080201;
0x10108020102080201030802010408020105080201060802010708020108080201;
0x1090802010a0802010b0802010c0802010d0802010e0802010f08020110080201;
0x11108020112080201130802011408020115080201160802011708020100090201;
0x10109020102090201030902010409020105090201060902010709020108090201;
0x1090902010a0902010b0902010c0902010d0902010e0902010f09020110090201;
0x111090201120902011309020114090201150902011609020117090201000a0201;
0x1010a0201020a0201030a0201040a0201050a0201060a0201070a0201080a0201;
0x1090a02010a0a02010b0a02010c0a02010d0a02010e0a02010f0a0201100a0201;
0x1110a0201120a0201130a0201140a0201150a0201160a0201170a0201000b0201;
0x1010b0201020b0201030b0201040b0201050b0201060b0201070b0201080b0201;
0x1090b02010a0b02010b0b02010c0b02010d0b02010e0b02010f0b0201100b0201;
0x1110b0201120b0201130b0201140b0201150b0201160b0201170b0201000c0201;
0x1010c0201020c0201030c0201040c0201050c0201060c0201070c0201080c0201;
0x1090c02010a0c02010b0c02010c0c02010d0c02010e0c02010f0c0201100c0201;
0x1110c0201120c0201130c0201140c0201150c0201160c0201170c0201000d0201;
0x1010d0201020d0201030d0201040d0201050d0201060d0201070d0201080d0201;
0x1090d02010a0d02010b0d02010c0d02010d0d02010e0d02010f0d0201100d0201;
0x1110d0201120d0201130d0201140d0201150d0201160d0201170d0201000e0201;
0x1010e0201020e0201030e0201040e0201050e0201060e0201070e0201080e0201;
0x1090e02010a0e02010b0e02010c0e02010d0e02010e0e02010f0e0201100e0201;
0x1110e0201120e0201130e0201140e0201150e0201160e0201170e0201000f0201;
0x1010f0201020f0201030f0201040f0201050f0201060f0201070f0201080f0201;
0x1090f02010a0f02010b0f02010c0f02010d0f02010e0f02010f0f0201100f0201;
0x1110f0201120f0201130f0201140f0201150f0201160f0201170f020108100201;
0x1091002010a1002010b1002010c1002010d1002010e1002010f10020108110201;
0x1091102010a1102010b1102010c1102010d1102010e1102010f11020108120201;
0x1091202010a1202010b1202010c1202010d1202010e1202010f12020108130201;
0x1091302010a1302010b1302010c1302010d1302010e1302010f13020108140201;
0x1091402010a1402010b1402010c1402010d1402010e1402010f14020108150201;
0x1091502010a1502010b1502010c1502010d1502010e1502010f15020108160201;
0x1091602010a1602010b1602010c1602010d1602010e1602010f16020108170201;
0x1091702010a1702010b1702010c1702010d1702010e1702010f17020108000301;
0x1090003010a0003010b0003010c0003010d0003010e0003010f00030108010301;
0x1090103010a0103010b0103010c0103010d0103010e0103010f01030108020301;
0x1090203010a0203010b0203010c0203010d0203010e0203010f02030108030301;
0x1090303010a0303010b0303010c0303010d0303010e0303010f03030108040301;
0x1090403010a0403010b0403010c0403010d0403010e0403010f04030108050301;
0x1090503010a0503010b0503010c0503010d0503010e0503010f05030108060301;
0x1090603010a0603010b0603010c0603010d0603010e0603010f06030108070301;
0x1090703010a0703010b0703010c0703010d0703010e0703010f07030100080301;
0x10108030102080301030803010408030105080301060803010708030108080301;
0x1090803010a0803010b0803010c0803010d0803010e0803010f08030110080301;
0x11108030112080301130803011408030115080301160803011708030100090301;
0x10109030102090301030903010409030105090301060903010709030108090301;
0x1090903010a0903010b0903010c0903010d0903010e0903010f09030110090301;
0x111090301120903011309030114090301150903011609030117090301000a0301;
0x1010a0301020a0301030a0301040a0301050a0301060a0301070a0301080a0301;
0x1090a03010a0a03010b0a03010c0a03010d0a03010e0a03010f0a0301100a0301;
0x1110a0301120a0301130a0301140a0301150a0301160a0301170a0301000b0301;
0x1010b0301020b0301030b0301040b0301050b0301060b0301070b0301080b0301;
0x1090b03010a0b03010b0b03010c0b03010d0b03010e0b03010f0b0301100b0301;
0x1110b0301120b0301130b0301140b0301150b0301160b0301170b0301000c0301;
0x1010c0301020c0301030c0301040c0301050c0301060c0301070c0301080c0301;
0x1090c03010a0c03010b0c03010c0c03010d0c03010e0c03010f0c0301100c0301;
0x1110c0301120c0301130c0301140c0301150c0301160c0301170c0301000d0301;
0x1010d0301020d0301030d0301040d0301050d0301060d0301070d0301080d0301;
0x1090d03010a0d03010b0d03010c0d03010d0d03010e0d03010f0d0301100d0301;
0x1110d0301120d0301130d0301140d0301150d0301160d0301170d0301000e0301;
0x1010e0301020e0301030e0301040e0301050e0301060e0301070e0301080e0301;
0x1090e03010a0e03010b0e03010c0e03010d0e03010e0e03010f0e0301100e0301;
0x1110e0301120e0301130e0301140e0301150e0301160e0301170e0301000f0301;
0x1010f0301020f0301030f0301040f0301050f0301060f0301070f0301080f0301;
0x1090f03010a0f03010b0f03010c0f03010d0f03010e0f03010f0f0301100f0301;
0x1110f0301120f0301130f0301140f0301150f0301160f0301170f030108100301;
0x1091003010a1003010b1003010c1003010d1003010e1003010f10030108110301;
0x1091103010a1103010b1103010c1103010d1103010e1103010f11030108120301;
0x1091203010a1203010b1203010c1203010d1203010e1203010f12030108130301;
0x1091303010a1303010b1303010c1303010d1303010e1303010f13030108140301;
0x1091403010a1403010b1403010c1403010d1403010e1403010f14030108150301;
0x1091503010a1503010b1503010c1503010d1503010e1503010f15030108160301;
0x1091603010a1603010b1603010c1603010d1603010e1603010f16030108170301;
0x1091703010a1703010b1703010c1703010d1703010e1703010f17030108000401;
0x1090004010a0004010b0004010c0004010d0004010e0004010f00040108010401;
0x1090104010a0104010b0104010c0104010d0104010e0104010f01040108020401;
0x1090204010a0204010b0204010c0204010d0204010e0204010f02040108030401;
0x1090304010a0304010b0304010c0304010d0304010e0304010f03040108040401;
0x1090404010a0404010b0404010c0404010d0404010e0404010f04040108050401;
0x1090504010a0504010b0504010c0504010d0504010e0504010f05040108060401;
0x1090604010a0604010b0604010c0604010d0604010e0604010f06040108070401;
0x1090704010a0704010b0704010c0704010d0704010e0704010f07040100080401;
0x10108040102080401030804010408040105080401060804010708040108080401;
0x1090804010a0804010b0804010c0804010d0804010e0804010f08040110080401;
0x11108040112080401130804011408040115080401160804011708040100090401;
0x10109040102090401030904010409040105090401060904010709040108090401;
0x1090904010a0904010b0904010c0904010d0904010e0904010f09040110090401;
0x111090401120904011309040114090401150904011609040117090401000a0401;
0x1010a0401020a0401030a0401040a0401050a0401060a0401070a0401080a0401;
0x1090a04010a0a04010b0a04010c0a04010d0a04010e0a04010f0a0401100a0401;
0x1110a0401120a0401130a0401140a0401150a0401160a0401170a0401000b0401;
0x1010b0401020b0401030b0401040b0401050b0401060b0401070b0401080b0401;
0x1090b04010a0b04010b0b04010c0b04010d0b04010e0b04010f0b0401100b0401;
0x1110b0401120b0401130b0401140b0401150b0401160b0401170b0401000c0401;
0x1010c0401020c0401030c0401040c0401050c0401060c0401070c0401080c0401;
0x1090c04010a0c04010b0c04010c0c04010d0c04010e0c04010f0c0401100c0401;
0x1110c0401120c0401130c0401140c0401150c0401160c0401170c0401000d0401;
0x1010d0401020d0401030d0401040d0401050d0401060d0401070d0401080d0401;
0x1090d04010a0d04010b0d04010c0d04010d0d04010e0d04010f0d0401100d0401;
0x1110d0401120d0401130d0401140d0401150d0401160d0401170d0401000e0401;
0x1010e0401020e0401030e0401040e0401050e0401060e0401070e0401080e0401;
0x1090e04010a0e04010b0e04010c0e04010d0e04010e0e04010f0e0401100e0401;
0x1110e0401120e0401130e0401140e0401150e0401160e0401170e0401000f0401;
0x1010f0401020f0401030f0401040f0401050f0401060f0401070f0401080f0401;
0x1090f04010a0f04010b0f04010c0f04010d0f04010e0f04010f0f0401100f0401;
0x1110f0401120f0401130f0401140f0401150f0401160f0401170f040108100401;
0x1091004010a1004010b1004010c1004010d1004010e1004010f10040108110401;
0x1091104010a1104010b1104010c1104010d1104010e1104010f11040108120401;
0x1091204010a1204010b1204010c1204010d1204010e1204010f12040108130401;
0x1091304010a1304010b1304010c1304010d1304010e1304010f13040108140401;
0x1091404010a1404010b1404010c1404010d1404010e1404010f14040108150401;
0x1091504010a1504010b1504010c1504010d1504010e1504010f15040108160401;
0x1091604010a1604010b1604010c1604010d1604010e1604010f16040108170401;
0x1091704010a1704010b1704010c1704010d1704010e1704010f17040108000501;
0x1090005010a0005010b0005010c0005010d0005010e0005010f00050108010501;
0x1090105010a0105010b0105010c0105010d0105010e0105010f01050108020501;
0x1090205010a0205010b0205010c0205010d0205010e0205010f02050108030501;
0x1090305010a0305010b0305010c0305010d0305010e0305010f03050108040501;
0x1090405010a0405010b0405010c0405010d0405010e0405010f04050108050501;
0x1090505010a0505010b0505010c0505010d0505010e0505010f05050108060501;
0x1090605010a0605010b0605010c0605010d0605010e0605010f06050108070501;
0x1090705010a0705010b0705010c0705010d0705010e0705010f07050100080501;
0x10108050102080501030805010408050105080501060805010708050108080501;
0x1090805010a0805010b0805010c0805010d0805010e0805010f08050110080501;
0x11108050112080501130805011408050115080501160805011708050100090501;
0x10109050102090501030905010409050105090501060905010709050108090501;
0x1090905010a0905010b0905010c0905010d0905010e0905010f09050110090501;
0x111090501120905011309050114090501150905011609050117090501000a0501;
0x1010a0501020a0501030a0501040a0501050a0501060a0501070a0501080a0501;
0x1090a05010a0a05010b0a05010c0a05010d0a05010e0a05010f0a0501100a0501;
0x1110a0501120a0501130a0501140a0501150a0501160a0501170a0501000b0501;
0x1010b0501020b0501030b0501040b0501050b0501060b0501070b0501080b0501;
0x1090b05010a0b05010b0b05010c0b05010d0b05010e0b05010f0b0501100b0501;
0x1110b0501120b0501130b0501140b0501150b0501160b0501170b0501000c0501;
0x1010c0501020c0501030c0501040c0501050c0501060c0501070c0501080c0501;
0x1090c05010a0c05010b0c05010c0c05010d0c05010e0c05010f0c0501100c0501;
0x1110c0501120c0501130c0501140c0501150c0501160c0501170c0501000d0501;
0x1010d0501020d0501030d0501040d0501050d0501060d0501070d0501080d0501;
0x1090d05010a0d05010b0d05010c0d05010d0d05010e0d05010f0d0501100d0501;
0x1110d0501120d0501130d0501140d0501150d0501160d0501170d0501000e0501;
0x1010e0501020e0501030e0501040e0501050e0501060e0501070e0501080e0501;
0x1090e05010a0e05010b0e05010c0e05010d0e05010e0e05010f0e0501100e0501;
0x1110e0501120e0501130e0501140e0501150e0501160e0501170e0501000f0501;
0x1010f0501020f0501030f0501040f0501050f0501060f0501070f0501080f0501;
0x1090f05010a0f05010b0f05010c0f05010d0f05010e0f05010f0f0501100f0501;
0x1110f0501120f0501130f0501140f0501150f0501160f0501170f050108100501;
0x1091005010a1005010b1005010c1005010d1005010e1005010f10050108110501;
0x1091105010a1105010b1105010c1105010d1105010e1105010f11050108120501;
0x1091205010a1205010b1205010c1205010d1205010e1205010f12050108130501;
0x1091305010a1305010b1305010c1305010d1305010e1305010f13050108140501;
0x1091405010a1405010b1405010c1405010d1405010e1405010f14050108150501;
0x1091505010a1505010b1505010c1505010d1505010e1505010f15050108160501;
0x1091605010a1605010b1605010c1605010d1605010e1605010f16050108170501;
0x1091705010a1705010b1705010c1705010d1705010e1705010f17050108000601;
0x1090006010a0006010b0006010c0006010d0006010e0006010f00060108010601;
0x1090106010a0106010b0106010c0106010d0106010e0106010f01060108020601;
0x1090206010a0206010b0206010c0206010d0206010e0206010f02060108030601;
0x1090306010a0306010b0306010c0306010d0306010e0306010f03060108040601;
0x1090406010a0406010b0406010c0406010d0406010e0406010f04060108050601;
0x1090506010a0506010b0506010c0506010d0506010e0506010f05060108060601;
0x1090606010a0606010b0606010c0606010d0606010e0606010f06060108070601;
0x1090706010a0706010b0706010c0706010d0706010e0706010f07060100080601;
0x10108060102080601030806010408060105080601060806010708060108080601;
0x1090806010a0806010b0806010c0806010d0806010e0806010f08060110080601;
0x11108060112080601130806011408060115080601160806011708060100090601;
0x10109060102090601030906010409060105090601060906010709060108090601;
0x1090906010a0906010b0906010c0906010d0906010e0906010f09060110090601;
0x111090601120906011309060114090601150906011609060117090601000a0601;
0x1010a0601020a0601030a0601040a0601050a0601060a0601070a0601080a0601;
0x1090a06010a0a06010b0a06010c0a06010d0a06010e0a06010f0a0601100a0601;
0x1110a0601120a0601130a0601140a0601150a0601160a0601170a0601000b0601;
0x1010b0601020b0601030b0601040b0601050b0601060b0601070b0601080b0601;
0x1090b06010a0b06010b0b06010c0b06010d0b06010e0b06010f0b0601100b0601;
0x1110b0601120b0601130b0601140b0601150b0601160b0601170b0601000c0601;
0x1010c0601020c0601030c0601040c0601050c0601060c0601070c0601080c0601;
0x1090c06010a0c06010b0c06010c0c06010d0c06010e0c06010f0c0601100c0601;
0x1110c0601120c0601130c0601140c0601150c0601160c0601170c0601000d0601;
0x1010d0601020d0601030d0601040d0601050d0601060d0601070d0601080d0601;
0x1090d06010a0d06010b0d06010c0d06010d0d06010e0d06010f0d0601100d0601;
0x1110d0601120d0601130d0601140d0601150d0601160d0601170d0601000e0601;
0x1010e0601020e0601030e0601040e0601050e0601060e0601070e0601080e0601;
0x1090e06010a0e06010b0e06010c0e06010d0e06010e0e06010f0e0601100e0601;
0x1110e0601120e0601130e0601140e0601150e0601160e0601170e0601000f0601;
0x1010f0601020f0601030f0601040f0601050f0601060f0601070f0601080f0601;
0x1090f06010a0f06010b0f06010c0f06010d0f06010e0f06010f0f0601100f0601;
0x1110f0601120f0601130f0601140f0601150f0601160f0601170f060108100601;
0x1091006010a1006010b1006010c1006010d1006010e1006010f10060108110601;
0x1091106010a1106010b1106010c1106010d1106010e1106010f11060108120601;
0x1091206010a1206010b1206010c1206010d1206010e1206010f12060108130601;
0x1091306010a1306010b1306010c1306010d1306010e1306010f13060108140601;
0x1091406010a1406010b1406010c1406010d1406010e1406010f14060108150601;
0x1091506010a1506010b1506010c1506010d1506010e1506010f15060108160601;
0x1091606010a1606010b1606010c1606010d1606010e1606010f16060108170601;
0x1091706010a1706010b1706010c1706010d1706010e1706010f17060108000701;
0x1090007010a0007010b0007010c0007010d0007010e0007010f00070108010701;
0x1090107010a0107010b0107010c0107010d0107010e0107010f01070108020701;
0x1090207010a0207010b0207010c0207010d0207010e0207010f02070108030701;
0x1090307010a0307010b0307010c0307010d0307010e0307010f03070108040701;
0x1090407010a0407010b0407010c0407010d0407010e0407010f04070108050701;
0x1090507010a0507010b0507010c0507010d0507010e0507010f05070108060701;
0x1090607010a0607010b0607010c0607010d0607010e0607010f06070108070701;
0x1090707010a0707010b0707010c0707010d0707010e0707010f07070100080701;
0x10108070102080701030807010408070105080701060807010708070108080701;
0x1090807010a0807010b0807010c0807010d0807010e0807010f08070110080701;
0x11108070112080701130807011408070115080701160807011708070100090701;
0x10109070102090701030907010409070105090701060907010709070108090701;
0x1090907010a0907010b0907010c0907010d0907010e0907010f09070110090701;
0x111090701120907011309070114090701150907011609070117090701000a0701;
0x1010a0701020a0701030a0701040a0701050a0701060a0701070a0701080a0701;
0x1090a07010a0a07010b0a07010c0a07010d0a07010e0a07010f0a0701100a0701;
0x1110a0701120a0701130a0701140a0701150a0701160a0701170a0701000b0701;
0x1010b0701020b0701030b0701040b0701050b0701060b0701070b0701080b0701;
0x1090b07010a0b07010b0b07010c0b07010d0b07010e0b07010f0b0701100b0701;
0x1110b0701120b0701130b0701140b0701150b0701160b0701170b0701000c0701;
0x1010c0701020c0701030c0701040c0701050c0701060c0701070c0701080c0701;
0x1090c07010a0c07010b0c07010c0c07010d0c07010e0c07010f0c0701100c0701;
0x1110c0701120c0701130c0701140c0701150c0701160c0701170c0701000d0701;
0x1010d0701020d0701030d0701040d0701050d0701060d0701070d0701080d0701;
0x1090d07010a0d07010b0d07010c0d07010d0d07010e0d07010f0d0701100d0701;
0x1110d0701120d0701130d0701140d0701150d0701160d0701170d0701000e0701;
0x1010e0701020e0701030e0701040e0701050e0701060e0701070e0701080e0701;
0x1090e07010a0e07010b0e07010c0e07010d0e07010e0e07010f0e0701100e0701;
0x1110e0701120e0701130e0701140e0701150e0701160e0701170e0701000f0701;
0x1010f0701020f0701030f0701040f0701050f0701060f0701070f0701080f0701;
0x1090f07010a0f07010b0f07010c0f07010d0f07010e0f07010f0f0701100f0701;
0x1110f0701120f0701130f0701140f0701150f0701160f0701170f070108100701;
0x1091007010a1007010b1007010c1007010d1007010e1007010f10070108110701;
0x1091107010a1107010b1107010c1107010d1107010e1107010f11070108120701;
0x1091207010a1207010b1207010c1207010d1207010e1207010f12070108130701;
0x1091307010a1307010b1307010c1307010d1307010e1307010f13070108140701;
0x1091407010a1407010b1407010c1407010d1407010e1407010f14070108150701;
0x1091507010a1507010b1507010c1507010d1507010e1507010f15070108160701;
0x1091607010a1607010b1607010c1607010d1607010e1607010f16070108170701;
0x1091707010a1707010b1707010c1707010d1707010e1707010f17070108000801;
0x1090008010a0008010b0008010c0008010d0008010e0008010f00080108010801;
0x1090108010a0108010b0108010c0108010d0108010e0108010f01080108020801;
0x1090208010a0208010b0208010c0208010d0208010e0208010f02080108030801;
0x1090308010a0308010b0308010c0308010d0308010e0308010f03080108040801;
0x1090408010a0408010b0408010c0408010d0408010e0408010f04080108050801;
0x1090508010a0508010b0508010c0508010d0508010e0508010f05080108060801;
0x1090608010a0608010b0608010c0608010d0608010e0608010f06080108070801;
0x1090708010a0708010b0708010c0708010d0708010e0708010f07080100080801;
0x10108080102080801030808010408080105080801060808010708080108080801;
0x1090808010a0808010b0808010c0808010d0808010e0808010f08080110080801;
0x11108080112080801130808011408080115080801160808011708080100090801;
0x10109080102090801030908010409080105090801060908010709080108090801;
0x1090908010a0908010b0908010c0908010d0908010e0908010f09080110090801;
0x111090801120908011309080114090801150908011609080117090801000a0801;
0x1010a0801020a0801030a0801040a0801050a0801060a0801070a0801080a0801;
0x1090a08010a0a08010b0a08010c0a08010d0a08010e0a08010f0a0801100a0801;
0x1110a0801120a0801130a0801140a0801150a0801160a0801170a0801000b0801;
0x1010b0801020b0801030b0801040b0801050b0801060b0801070b0801080b0801;
0x1090b08010a0b08010b0b08010c0b08010d0b08010e0b08010f0b0801100b0801;
0x1110b0801120b0801130b0801140b0801150b0801160b0801170b0801000c0801;
0x1010c0801020c0801030c0801040c0801050c0801060c0801070c0801080c0801;
0x1090c08010a0c08010b0c08010c0c08010d0c08010e0c08010f0c0801100c0801;
0x1110c0801120c0801130c0801140c0801150c0801160c0801170c0801000d0801;
0x1010d0801020d0801030d0801040d0801050d0801060d0801070d0801080d0801;
0x1090d08010a0d08010b0d08010c0d08010d0d08010e0d08010f0d0801100d0801;
0x1110d0801120d0801130d0801140d0801150d0801160d0801170d0801000e0801;
0x1010e0801020e0801030e0801040e0801050e0801060e0801070e0801080e0801;
0x1090e08010a0e08010b0e08010c0e08010d0e08010e0e08010f0e0801100e0801;
0x1110e0801120e0801130e0801140e0801150e0801160e0801170e0801000f0801;
0x1010f0801020f0801030f0801040f0801050f0801060f0801070f0801080f0801;
0x1090f08010a0f08010b0f08010c0f08010d0f08010e0f08010f0f0801100f0801;
0x1110f0801120f0801130f0801140f0801150f0801160f0801170f080108100801;
0x1091008010a1008010b1008010c1008010d1008010e1008010f10080108110801;
0x1091108010a1108010b1108010c1108010d1108010e1108010f11080108120801;
0x1091208010a1208010b1208010c1208010d1208010e1208010f12080108130801;
0x1091308010a1308010b1308010c1308010d1308010e1308010f13080108140801;
0x1091408010a1408010b1408010c1408010d1408010e1408010f14080108150801;
0x1091508010a1508010b1508010c1508010d1508010e1508010f15080108160801;
0x1091608010a1608010b1608010c1608010d1608010e1608010f16080108170801;
0x1091708010a1708010b1708010c1708010d1708010e1708010f17080108000901;
0x10f000901080109010f010901080209010f020901080309010f03090108040901;
0x10f040901080509010f050901080609010f060901080709010f07090100080901;
0x10108090102080901030809010408090105080901060809010708090108080901;
0x10f08090110080901110809011208090113080901140809011508090116080901;
0x117080901000f0901010f0901020f0901030f0901040f0901050f0901060f0901;
0x1070f0901080f09010f0f0901100f0901110f0901120f0901130f0901140f0901;
0x1150f0901160f0901170f0901081009010f100901081109010f11090108120901;
0x10f120901081309010f130901081409010f140901081509010f15090108160901;
0x10f160901081709010f17090108000a010f000a0108010a010f010a0108020a01;
0x10f020a0108030a010f030a0108040a010f040a0108050a010f050a0108060a01;
0x10f060a0108070a010f070a0100080a0101080a0102080a0103080a0104080a01;
0x105080a0106080a0107080a0108080a010f080a0110080a0111080a0112080a01;
0x113080a0114080a0115080a0116080a0117080a01000f0a01010f0a01020f0a01;
0x1030f0a01040f0a01050f0a01060f0a01070f0a01080f0a010f0f0a01100f0a01;
0x1110f0a01120f0a01130f0a01140f0a01150f0a01160f0a01170f0a0108100a01;
0x10f100a0108110a010f110a0108120a010f120a0108130a010f130a0108140a01;
0x10f140a0108150a010f150a0108160a010f160a0108170a010f170a010f000b01;
0x108010b010f020b0108030b010f040b0108050b010f060b0108070b0101080b01;
0x103080b0105080b0107080b010f080b0111080b0113080b0115080b0117080b01;
0x1010f0b01030f0b01050f0b01070f0b010f0f0b01110f0b01130f0b01150f0b01;
0x1170f0b0108100b010f110b0108120b010f130b0108140b010f150b0108160b01;
0x10f170b0152474241000400000000000000000000847e87ff847e87ff847e87ff;
0x1847e87ff847e87ff847e87ff847e87ff847e87ff847e87ff847e87ff847e87ff;
0x1847e87ff847e87ff847e87ff847e87ff847e87ff847e87ff847e87ff847e87ff;
0x1847e87ff847e87ff847e87ff847e87ff847e87ff847e87ff847e87ff847e87ff;
0x1847e87ff847e87ff847e87ff847e87ff847e87ff847e87ff847e87ff847e87ff;
0x1847e87ff847e87ff847e87ff847e87ff847e87ff847e87ff847e87ff847e87ff;
0x1847e87ff847e87ff847e87ff847e87ff847e87ff847e87ff847e87ff847e87ff;
0x1847e87ff847e87ff847e87ff847e87ff847e87ff847e87ff847e87ff847e87ff;
0x1847e87ff847e87ff847e87ff847e87ff847e87ff847e87ff847e87ff847e87ff;
0x1847e87ff847e87ff847e87ff847e87ff847e87ff847e87ff847e87ff847e87ff;
0x1847e87ff847e87ff847e87ff847e87ff847e87ff847e87ff847e87ff847e87ff;
0x1847e87ff847e87ff847e87ff847e87ff847e87ff847e87ff847e87ff847e87ff;
0x1847e87ff847e87ff847e87ff847e87ff847e87ff847e87ff847e87ff847e87ff;
0x1847e87ff847e87ff847e87ff847e87ff847e87ff847e87ff847e87ff847e87ff;
0x1847e87ff847e87ff847e87ff847e87ff847e87ff847e87ff847e87ff847e87ff;
0x1847e87ff847e87ff847e87ff847e87ff847e87ff847e87ff847e87ff847e87ff;
0x1847e87ff847e87ff847e87ff847e87ff847e87ff847e87ff847e87ff847e87ff;
0x1847e87ff847e87ff847e87ff847e87ff847e87ff847e87ff847e87ff847e87ff;
0x1847e87ff847e87ff847e87ff847e87ff847e87ff847e87ff847e87ff847e87ff;
0x1847e87ff847e87ff847e87ff847e87ff847e87ff847e87ff847e87ff847e87ff;
0x1847e87ff847e87ff847e87ff847e87ff847e87ff847e87ff847e87ff847e87ff;
0x1847e87ff847e87ff847e87ff847e87ff847e87ff847e87ff847e87ff847e87ff;
0x1847e87ff847e87ff847e87ff847e87ff847e87ff847e87ff847e87ff847e87ff;
0x1847e87ff847e87ff847e87ff847e87ff847e87ff847e87ff847e87ff847e87ff;
0x1847e87ff847e87ff847e87ff847e87ff847e87ff847e87ff847e87ff847e87ff;
0x1847e87ff847e87ff847e87ff847e87ff847e87ff847e87ff847e87ff847e87ff;
0x10000000000000000000000000000000000000000000000000000000000000000;
0x10000000000000000000000000000000000000000000000000000000000000000;
0x10000000000000000000000000000000000000000000000000000000000000000;
0x10000000000000000000000000000000000000000000000000000000000000000;
0x10000000000000000000000000000000000000000000000000000000000000000;
0x10000000000000000000000000000000000000000000000000000000000000000;
0x100000000000000000000000000000000].
(** redeclipse/prefabs/castle/castle_wall_tower.vox (3880 bytes) *)
Definition vox_castle_castle_wall_tower : list Z := [
0x1564f5820960000004d41494e00000000140f000053495a450c00000000000000;
0x108000000080000001300000058595a49e40a000000000000b802000000000001;
0x10100000102000001030000010400000105000001060000010700000100010001;
0x10101000102010001030100010401000105010001060100010701000100020001;
0x10102000102020001030200010402000105020001060200010702000100030001;
0x10103000102030001030300010403000105030001060300010703000100040001;
0x10104000102040001030400010404000105040001060400010704000100050001;
0x10105000102050001030500010405000105050001060500010705000100060001;
0x10106000102060001030600010406000105060001060600010706000100070001;
0x10107000102070001030700010407000105070001060700010707000100000101;
0x10100010102000101030001010400010105000101060001010700010100010101;
0x10101010102010101030101010401010105010101060101010701010100020101;
0x10102010102020101030201010402010105020101060201010702010100030101;
0x10103010102030101030301010403010105030101060301010703010100040101;
0x10104010102040101030401010404010105040101060401010704010100050101;
0x10105010102050101030501010405010105050101060501010705010100060101;
0x10106010102060101030601010406010105060101060601010706010100070101;
0x10107010102070101030701010407010105070101060701010707010100000201;
0x10100020102000201030002010400020105000201060002010700020100010201;
0x10101020102010201030102010401020105010201060102010701020100020201;
0x10102020102020201030202010402020105020201060202010702020100030201;
0x10103020102030201030302010403020105030201060302010703020100040201;
0x10104020102040201030402010404020105040201060402010704020100050201;
0x10105020102050201030502010405020105050201060502010705020100060201;
0x10106020102060201030602010406020105060201060602010706020100070201;
0x10107020102070201030702010407020105070201060702010707020100000301;
0x10100030102000301030003010400030105000301060003010700030100010301;
0x10101030102010301030103010401030105010301060103010701030100020301;
0x10102030102020301030203010402030105020301060203010702030100030301;
0x10103030102030301030303010403030105030301060303010703030100040301;
0x10104030102040301030403010404030105040301060403010704030100050301;
0x10105030102050301030503010405030105050301060503010705030100060301;
0x10106030102060301030603010406030105060301060603010706030100070301;
0x10107030102070301030703010407030105070301060703010707030100000401;
0x10100040102000401030004010400040105000401060004010700040100010401;
0x10101040102010401030104010401040105010401060104010701040100020401;
0x10102040102020401030204010402040105020401060204010702040100030401;
0x10103040102030401030304010403040105030401060304010703040100040401;
0x10104040102040401030404010404040105040401060404010704040100050401;
0x10105040102050401030504010405040105050401060504010705040100060401;
0x10106040102060401030604010406040105060401060604010706040100070401;
0x10107040102070401030704010407040105070401060704010707040100000501;
0x10100050102000501030005010400050105000501060005010700050100010501;
0x10101050102010501030105010401050105010501060105010701050100020501;
0x10102050102020501030205010402050105020501060205010702050100030501;
0x10103050102030501030305010403050105030501060305010703050100040501;
0x10104050102040501030405010404050105040501060405010704050100050501;
0x10105050102050501030505010405050105050501060505010705050100060501;
0x10106050102060501030605010406050105060501060605010706050100070501;
0x10107050102070501030705010407050105070501060705010707050100000601;
0x10100060102000601030006010400060105000601060006010700060100010601;
0x10101060102010601030106010401060105010601060106010701060100020601;
0x10102060102020601030206010402060105020601060206010702060100030601;
0x10103060102030601030306010403060105030601060306010703060100040601;
0x10104060102040601030406010404060105040601060406010704060100050601;
0x10105060102050601030506010405060105050601060506010705060100060601;
0x10106060102060601030606010406060105060601060606010706060100070601;
0x10107060102070601030706010407060105070601060706010707060100000701;
0x10100070102000701030007010400070105000701060007010700070100010701;
0x10101070102010701030107010401070105010701060107010701070100020701;
0x10102070102020701030207010402070105020701060207010702070100030701;
0x10103070102030701030307010403070105030701060307010703070100040701;
0x10104070102040701030407010404070105040701060407010704070100050701;
0x10105070102050701030507010405070105050701060507010705070100060701;
0x10106070102060701030607010406070105060701060607010706070100070701;
0x10107070102070701030707010407070105070701060707010707070100000801;
0x10100080102000801030008010400080105000801060008010700080100010801;
0x10101080102010801030108010401080105010801060108010701080100020801;
0x10102080102020801030208010402080105020801060208010702080100030801;
0x10103080102030801030308010403080105030801060308010703080100040801;
0x10104080102040801030408010404080105040801060408010704080100050801;
0x10105080102050801030508010405080105050801060508010705080100060801;
0x10106080102060801030608010406080105060801060608010706080100070801;
0x10107080102070801030708010407080105070801060708010707080100000901;
0x10100090106000901070009010001090107010901000609010706090100070901;
0x101070901060709010707090100000a5a01000a5a06000a5a07000a5a00010a5a;
0x107010a5a00060a5a07060a5a00070a5a01070a5a06070a5a07070a5a01000b5a;
0x106000b5a00010b5a07010b5a00060b5a07060b5a01070b5a06070b5a01000c5a;
0x106000c5a00010c5a07010c5a00060c5a07060c5a01070c5a06070c5a01000d5a;
0x106000d5a00010d5a07010d5a00060d5a07060d5a01070d5a06070d5a01000e5a;
0x106000e5a00010e5a07010e5a00060e5a07060e5a01070e5a06070e5a01000f5a;
0x102000f5a03000f5a04000f5a05000f5a06000f5a00010f5a01010f5a06010f5a;
0x107010f5a00020f5a07020f5a00030f5a07030f5a00040f5a07040f5a00050f5a;
0x107050f5a00060f5a01060f5a06060f5a07060f5a01070f5a02070f5a03070f5a;
0x104070f5a05070f5a06070f5a0101105a0201105a0301105a0401105a0501105a;
0x10601105a0102105a0602105a0103105a0603105a0104105a0604105a0105105a;
0x10605105a0106105a0206105a0306105a0406105a0506105a0606105a0202115a;
0x10302115a0402115a0502115a0203115a0503115a0204115a0504115a0205115a;
0x10305115a0405115a0505115a0303125a0403125a0304125a0404125a52474241;
0x1000400000000000000000000847e87ff847e87ff847e87ff847e87ff847e87ff;
0x1847e87ff847e87ff847e87ff847e87ff847e87ff847e87ff847e87ff847e87ff;
0x1847e87ff847e87ff847e87ff847e87ff847e87ff847e87ff847e87ff847e87ff;
0x1847e87ff847e87ff847e87ff847e87ff847e87ff847e87ff847e87ff847e87ff;
0x1847e87ff847e87ff847e87ff847e87ff847e87ff847e87ff847e87ff847e87ff;
0x1847e87ff847e87ff847e87ff847e87ff847e87ff847e87ff847e87ff847e87ff;
0x1847e87ff847e87ff847e87ff847e87ff847e87ff847e87ff847e87ff847e87ff;
0x1847e87ff847e87ff847e87ff847e87ff847e87ff847e87ff847e87ff847e87ff;
0x1847e87ff847e87ff847e87ff847e87ff847e87ff847e87ff847e87ff847e87ff;
0x1847e87ff847e87ff847e87ff847e87ff847e87ff847e87ff847e87ff847e87ff;
0x1847e87ff847e87ff847e87ff847e87ff847e87ff847e87ff847e87ff847e87ff;
0x1847e87ff847e87ff847e87ff847e87ff524b24ff524b24ff524b24ff524b24ff;
0x1524b24ff524b24ff524b24ff524b24ff524b24ff524b24ff524b24ff524b24ff;
0x1524b24ff524b24ff524b24ff524b24ff524b24ff524b24ff524b24ff524b24ff;
0x1524b24ff524b24ff524b24ff524b24ff524b24ff524b24ff524b24ff524b24ff;
0x1524b24ff524b24ff524b24ff524b24ff524b24ff524b24ff524b24ff524b24ff;
0x1524b24ff524b24ff524b24ff524b24ff524b24ff524b24ff524b24ff524b24ff;
0x1524b24ff524b24ff524b24ff524b24ff524b24ff524b24ff524b24ff524b24ff;
0x1524b24ff524b24ff524b24ff524b24ff524b24ff524b24ff524b24ff847e87ff;
0x1847e87ff847e87ff847e87ff847e87ff847e87ff847e87ff847e87ff847e87ff;
0x1847e87ff847e87ff847e87ff847e87ff847e87ff847e87ff847e87ff847e87ff;
0x1847e87ff847e87ff847e87ff847e87ff847e87ff847e87ff847e87ff00000000;
0x10000000000000000000000000000000000000000000000000000000000000000;
0x10000000000000000000000000000000000000000000000000000000000000000;
0x10000000000000000000000000000000000000000000000000000000000000000;
0x10000000000000000000000000000000000000000000000000000000000000000;
0x10000000000000000000000000000000000000000000000000000000000000000;
0x10000000000000000000000000000000000000000000000000000000000000000;
0x10000000000000000000000000000000000000000000000000000000000000000;
0x10000000000000000000000000000000000000000000000000000000000000000;
0x10000000000000000000000000000000000000000000000000000000000000000;
0x10000000000000000000000000000000000000000000000000000000000000000;
0x10000000000000000].
(** redeclipse/prefabs/castle/wooden_bridge.vox (2248 bytes) *)
Definition vox_castle_wooden_bridge : list Z := [
0x1564f5820960000004d41494e00000000b408000053495a450c00000000000000;
0x118000000080000000c00000058595a4984040000000000002001000000000025;
0x10100000116000001170000250007002501070001160700011707002500000125;
0x10100010102000101150001011600010117000125000701250107010102070101;
0x11507010116070101170701250000022502000201030002011400020115000201;
0x11700022500070225020702010307020114070201150702011707022500000325;
0x10300030104000301130003011400030117000325000703250307030104070301;
0x11307030114070301170703250000042504000401050004011200040113000401;
0x11700042500070425040704010507040112070401130704011707042500000525;
0x10500050106000501110005011200050117000525000705250507050106070501;
0x11107050112070501170705250000062506000601070006011000060111000601;
0x11700062500070625060706010707060110070601110706011707062500000725;
0x107000701080007010f0007011000070117000725000207250102072502020725;
0x1030207250402072505020725060207250702072508020725090207250a020725;
0x10b0207250c0207250d0207250e0207250f020725100207251102072512020725;
0x11302072514020725150207251602072517020725000507250105072502050725;
0x1030507250405072505050725060507250705072508050725090507250a050725;
0x10b0507250c0507250d0507250e0507250f050725100507251105072512050725;
0x11305072514050725150507251605072517050725000707250707070108070701;
0x10f07070110070701170707250000082501000801020008010400080105000801;
0x107000801080008010a0008010b0008010d0008010f0008011000080112000801;
0x11300080115000801160008011700082500010801010108010201080104010801;
0x10501080107010801080108010a0108010b0108010d0108010f01080110010801;
0x11201080113010801150108011601080117010801000208010102080102020801;
0x1040208010502080107020801080208010a0208010b0208010d0208010f020801;
0x11002080112020801130208011502080116020801170208010003080101030801;
0x102030801040308010503080107030801080308010a0308010b0308010d030801;
0x10f03080110030801120308011303080115030801160308011703080100040801;
0x10104080102040801040408010504080107040801080408010a0408010b040801;
0x10d0408010f040801100408011204080113040801150408011604080117040801;
0x1000508010105080102050801040508010505080107050801080508010a050801;
0x10b0508010d0508010f0508011005080112050801130508011505080116050801;
0x11705080100060801010608010206080104060801050608010706080108060801;
0x10a0608010b0608010d0608010f06080110060801120608011306080115060801;
0x11606080117060801000708250107080102070801040708010507080107070801;
0x1080708010a0708010b0708010d0708010f070801100708011207080113070801;
0x11507080116070801170708250000092517000925000709251707092500000a25;
0x117000a2500070a2517070a2500000b2517000b2500070b2517070b2552474241;
0x1000400000000000000000000524b24ff524b24ff524b24ff524b24ff524b24ff;
0x1524b24ff524b24ff524b24ff524b24ff524b24ff524b24ff524b24ff524b24ff;
0x1524b24ff524b24ff524b24ff524b24ff524b24ff524b24ff524b24ff524b24ff;
0x1524b24ff524b24ff524b24ff524b24ff524b24ff524b24ff524b24ff524b24ff;
0x1524b24ff524b24ff524b24ff524b24ff524b24ff524b24ff524b24ff2c2a12ff;
0x12c2a12ff2c2a12ff2c2a12ff2c2a12ff2c2a12ff2c2a12ff2c2a12ff2c2a12ff;
0x12c2a12ff2c2a12ff2c2a12ff2c2a12ff2c2a12ff2c2a12ff2c2a12ff2c2a12ff;
0x12c2a12ff2c2a12ff2c2a12ff2c2a12ff2c2a12ff2c2a12ff2c2a12ff2c2a12ff;
0x12c2a12ff2c2a12ff2c2a12ff2c2a12ff2c2a12ff2c2a12ff2c2a12ff2c2a12ff;
0x12c2a12ff2c2a12ff2c2a12ff2c2a12ff2c2a12ff2c2a12ff2c2a12ff2c2a12ff;
0x12c2a12ff2c2a12ff2c2a12ff2c2a12ff2c2a12ff2c2a12ff2c2a12ff2c2a12ff;
0x12c2a12ff2c2a12ff2c2a12ff2c2a12ff2c2a12ff2c2a12ff2c2a12ff2c2a12ff;
0x12c2a12ff2c2a12ff2c2a12ff2c2a12ff2c2a12ff2c2a12ff524b24ff524b24ff;
0x1524b24ff524b24ff524b24ff524b24ff524b24ff524b24ff524b24ff524b24ff;
0x1524b24ff524b24ff524b24ff524b24ff524b24ff524b24ff524b24ff524b24ff;
0x1524b24ff524b24ff524b24ff524b24ff524b24ff524b24ff524b24ff524b24ff;
0x1524b24ff524b24ff524b24ff524b24ff524b24ff524b24ff524b24ff524b24ff;
0x1524b24ff524b24ff524b24ff524b24ff524b24ff524b24ff524b24ff524b24ff;
0x1524b24ff524b24ff524b24ff524b24ff524b24ff524b24ff524b24ff524b24ff;
0x1524b24ff524b24ff524b24ff0000000000000000000000000000000000000000;
0x10000000000000000000000000000000000000000000000000000000000000000;
0x10000000000000000000000000000000000000000000000000000000000000000;
0x10000000000000000000000000000000000000000000000000000000000000000;
0x10000000000000000000000000000000000000000000000000000000000000000;
0x10000000000000000000000000000000000000000000000000000000000000000;
0x10000000000000000000000000000000000000000000000000000000000000000;
0x10000000000000000000000000000000000000000000000000000000000000000;
0x10000000000000000000000000000000000000000000000000000000000000000;
0x10000000000000000000000000000000000000000000000000000000000000000;
0x10000000000000000000000000000000000000000000000000000000000000000;
0x10000000000000000000000000000000000000000000000000000000000000000;
0x10000000000000000000000000000000000000000000000000000000000000000;
0x10000000000000000].
(** redeclipse/prefabs/dungeon/dungeon_2x2.vox (4416 bytes) *)
Definition vox_dungeon_dungeon_2x2 : list Z := [
0x1564f5820960000004d41494e000000002c11000053495a450c00000000000000;
0x110000000100000000800000058595a49fc0c0000000000003e03000000000001;
0x10100000102000001030000010400000105000001060000010700000108000001;
0x1090000010a0000010b0000010c0000010d0000010e0000010f00000100010001;
0x10101000102010001030100010401000105010001060100010701000108010001;
0x1090100010a0100010b0100010c0100010d0100010e0100010f01000100020001;
0x10102000102020001030200010402000105020001060200010702000108020001;
0x1090200010a0200010b0200010c0200010d0200010e0200010f02000100030001;
0x10103000102030001030300010403000105030001060300010703000108030001;
0x1090300010a0300010b0300010c0300010d0300010e0300010f03000100040001;
0x10104000102040001030400010404000105040001060400010704000108040001;
0x1090400010a0400010b0400010c0400010d0400010e0400010f04000100050001;
0x10105000102050001030500010405000105050001060500010705000108050001;
0x1090500010a0500010b0500010c0500010d0500010e0500010f05000100060001;
0x10106000102060001030600010406000105060001060600010706000108060001;
0x1090600010a0600010b0600010c0600010d0600010e0600010f06000100070001;
0x10107000102070001030700010407000105070001060700010707000108070001;
0x1090700010a0700010b0700010c0700010d0700010e0700010f07000100080001;
0x10108000102080001030800010408000105080001060800010708000108080001;
0x1090800010a0800010b0800010c0800010d0800010e0800010f08000100090001;
0x10109000102090001030900010409000105090001060900010709000108090001;
0x1090900010a0900010b0900010c0900010d0900010e0900010f090001000a0001;
0x1010a0001020a0001030a0001040a0001050a0001060a0001070a0001080a0001;
0x1090a00010a0a00010b0a00010c0a00010d0a00010e0a00010f0a0001000b0001;
0x1010b0001020b0001030b0001040b0001050b0001060b0001070b0001080b0001;
0x1090b00010a0b00010b0b00010c0b00010d0b00010e0b00010f0b0001000c0001;
0x1010c0001020c0001030c0001040c0001050c0001060c0001070c0001080c0001;
0x1090c00010a0c00010b0c00010c0c00010d0c00010e0c00010f0c0001000d0001;
0x1010d0001020d0001030d0001040d0001050d0001060d0001070d0001080d0001;
0x1090d00010a0d00010b0d00010c0d00010d0d00010e0d00010f0d0001000e0001;
0x1010e0001020e0001030e0001040e0001050e0001060e0001070e0001080e0001;
0x1090e00010a0e00010b0e00010c0e00010d0e00010e0e00010f0e0001000f0001;
0x1010f0001020f0001030f0001040f0001050f0001060f0001070f0001080f0001;
0x1090f00010a0f00010b0f00010c0f00010d0f00010e0f00010f0f000100000101;
0x10100010102000101030001010400010105000101060001010700010108000101;
0x1090001010a0001010b0001010c0001010d0001010e0001010f00010100010101;
0x10f010101000201010f020101000301010f030101000401010f04010100050101;
0x10f050101000601010f060101000701010f0701010f0801010f0901010f0a0101;
0x10f0b01010f0c01010f0d01010f0e0101000f0101010f0101020f0101030f0101;
0x1040f0101050f0101060f0101070f0101080f0101090f01010a0f01010b0f0101;
0x10c0f01010d0f01010e0f01010f0f010100000201010002010200020103000201;
0x10400020105000201060002010700020108000201090002010a0002010b000201;
0x10c0002010d0002010e0002010f000201000102010f010201000202010f020201;
0x1000302010f030201000402010f040201000502010f050201000602010f060201;
0x1000702010f0702010f0802010f0902010f0a02010f0b02010f0c02010f0d0201;
0x10f0e0201000f0201010f0201020f0201030f0201040f0201050f0201060f0201;
0x1070f0201080f0201090f02010a0f02010b0f02010c0f02010d0f02010e0f0201;
0x10f0f020100000301010003010200030103000301040003010500030106000301;
0x10700030108000301090003010a0003010b0003010c0003010d0003010e000301;
0x10f000301000103010f010301000203010f020301000303010f03030100040301;
0x10f040301000503010f050301000603010f060301000703010f0703010f080301;
0x10f0903010f0a03010f0b03010f0c03010f0d03010f0e0301000f0301010f0301;
0x1020f0301030f0301040f0301050f0301060f0301070f0301080f0301090f0301;
0x10a0f03010b0f03010c0f03010d0f03010e0f03010f0f03010000040101000401;
0x10200040103000401040004010500040106000401070004010800040109000401;
0x10a0004010b0004010c0004010d0004010e0004010f000401000104010f010401;
0x1000204010f020401000304010f030401000404010f040401000504010f050401;
0x1000604010f060401000704010f0704010f0804010f0904010f0a04010f0b0401;
0x10f0c04010f0d04010f0e0401000f0401010f0401020f0401030f0401040f0401;
0x1050f0401060f0401070f0401080f0401090f04010a0f04010b0f04010c0f0401;
0x10d0f04010e0f04010f0f04010000050101000501020005010300050104000501;
0x105000501060005010700050108000501090005010a0005010b0005010c000501;
0x10d0005010e0005010f000501000105010f010501000205010f02050100030501;
0x10f030501000405010f040501000505010f050501000605010f06050100070501;
0x10f0705010f0805010f0905010f0a05010f0b05010f0c05010f0d05010f0e0501;
0x1000f0501010f0501020f0501030f0501040f0501050f0501060f0501070f0501;
0x1080f0501090f05010a0f05010b0f05010c0f05010d0f05010e0f05010f0f0501;
0x10000060101000601020006010300060104000601050006010600060107000601;
0x108000601090006010a0006010b0006010c0006010d0006010e0006010f000601;
0x1000106010f010601000206010f020601000306010f030601000406010f040601;
0x1000506010f050601000606010f060601000706010f0706010f0806010f090601;
0x10f0a06010f0b06010f0c06010f0d06010f0e0601000f0601010f0601020f0601;
0x1030f0601040f0601050f0601060f0601070f0601080f0601090f06010a0f0601;
0x10b0f06010c0f06010d0f06010e0f06010f0f0601000007010100070102000701;
0x1030007010400070105000701060007010700070108000701090007010a000701;
0x10b0007010c0007010d0007010e0007010f000701000107010101070102010701;
0x1030107010401070105010701060107010701070108010701090107010a010701;
0x10b0107010c0107010d0107010e0107010f010701000207010102070102020701;
0x1030207010402070105020701060207010702070108020701090207010a020701;
0x10b0207010c0207010d0207010e0207010f020701000307010103070102030701;
0x1030307010403070105030701060307010703070108030701090307010a030701;
0x10b0307010c0307010d0307010e0307010f030701000407010104070102040701;
0x1030407010404070105040701060407010704070108040701090407010a040701;
0x10b0407010c0407010d0407010e0407010f040701000507010105070102050701;
0x1030507010405070105050701060507010705070108050701090507010a050701;
0x10b0507010c0507010d0507010e0507010f050701000607010106070102060701;
0x1030607010406070105060701060607010706070108060701090607010a060701;
0x10b0607010c0607010d0607010e0607010f060701000707010107070102070701;
0x1030707010407070105070701060707010707070108070701090707010a070701;
0x10b0707010c0707010d0707010e0707010f070701000807010108070102080701;
0x1030807010408070105080701060807010708070108080701090807010a080701;
0x10b0807010c0807010d0807010e0807010f080701000907010109070102090701;
0x1030907010409070105090701060907010709070108090701090907010a090701;
0x10b0907010c0907010d0907010e0907010f090701000a0701010a0701020a0701;
0x1030a0701040a0701050a0701060a0701070a0701080a0701090a07010a0a0701;
0x10b0a07010c0a07010d0a07010e0a07010f0a0701000b0701010b0701020b0701;
0x1030b0701040b0701050b0701060b0701070b0701080b0701090b07010a0b0701;
0x10b0b07010c0b07010d0b07010e0b07010f0b0701000c0701010c0701020c0701;
0x1030c0701040c0701050c0701060c0701070c0701080c0701090c07010a0c0701;
0x10b0c07010c0c07010d0c07010e0c07010f0c0701000d0701010d0701020d0701;
0x1030d0701040d0701050d0701060d0701070d0701080d0701090d07010a0d0701;
0x10b0d07010c0d07010d0d07010e0d07010f0d0701000e0701010e0701020e0701;
0x1030e0701040e0701050e0701060e0701070e0701080e0701090e07010a0e0701;
0x10b0e07010c0e07010d0e07010e0e07010f0e0701000f0701010f0701020f0701;
0x1030f0701040f0701050f0701060f0701070f0701080f0701090f07010a0f0701;
0x10b0f07010c0f07010d0f07010e0f07010f0f0701524742410004000000000000;
0x100000000847e87ff847e87ff847e87ff847e87ff847e87ff847e87ff847e87ff;
0x1847e87ff847e87ff847e87ff847e87ff847e87ff847e87ff847e87ff847e87ff;
0x1847e87ff847e87ff847e87ff847e87ff847e87ff847e87ff847e87ff847e87ff;
0x1847e87ff847e87ff847e87ff847e87ff847e87ff847e87ff847e87ff847e87ff;
0x1847e87ff847e87ff847e87ff847e87ff847e87ff847e87ff847e87ff847e87ff;
0x1847e87ff847e87ff847e87ff847e87ff847e87ff847e87ff847e87ff847e87ff;
0x1847e87ff847e87ff847e87ff847e87ff847e87ff847e87ff847e87ff847e87ff;
0x1847e87ff847e87ff847e87ff847e87ff847e87ff847e87ff847e87ff847e87ff;
0x1847e87ff847e87ff847e87ff847e87ff847e87ff847e87ff847e87ff847e87ff;
0x1847e87ff847e87ff847e87ff847e87ff847e87ff847e87ff847e87ff847e87ff;
0x1847e87ff847e87ff847e87ff847e87ff847e87ff847e87ff847e87ff847e87ff;
0x1847e87ff847e87ff847e87ff847e87ff847e87ff847e87ff847e87ff847e87ff;
0x1847e87ff847e87ff847e87ff847e87ff847e87ff847e87ff847e87ff847e87ff;
0x1847e87ff847e87ff847e87ff847e87ff847e87ff847e87ff847e87ff847e87ff;
0x1847e87ff847e87ff847e87ff847e87ff847e87ff847e87ff847e87ff847e87ff;
0x1847e87ff847e87ff847e87ff847e87ff847e87ff847e87ff847e87ff847e87ff;
0x1847e87ff847e87ff847e87ff847e87ff847e87ff847e87ff847e87ff847e87ff;
0x1847e87ff847e87ff847e87ff847e87ff847e87ff847e87ff847e87ff847e87ff;
0x1847e87ff847e87ff847e87ff847e87ff847e87ff847e87ff847e87ff847e87ff;
0x1847e87ff847e87ff847e87ff847e87ff847e87ff847e87ff847e87ff847e87ff;
0x1847e87ff847e87ff847e87ff847e87ff847e87ff847e87ff847e87ff847e87ff;
0x1847e87ff847e87ff847e87ff847e87ff847e87ff847e87ff847e87ff847e87ff;
0x1847e87ff847e87ff847e87ff847e87ff847e87ff847e87ff0000000000000000;
0x10000000000000000000000000000000000000000000000000000000000000000;
0x10000000000000000000000000000000000000000000000000000000000000000;
0x10000000000000000000000000000000000000000000000000000000000000000;
0x10000000000000000000000000000000000000000000000000000000000000000;
0x10000000000000000000000000000000000000000000000000000000000000000;
0x10000000000000000000000000000000000000000000000000000000000000000;
0x10000000000000000000000000000000000000000000000000000000000000000;
0x10000000000000000000000000000000000000000000000000000000000000000;
0x10000000000000000000000000000000000000000000000000000000000000000].
(** redeclipse/prefabs/dungeon/dungeon_junction.vox (6856 bytes) *)
Definition vox_dungeon_dungeon_junction : list Z := [
0x1564f5820960000004d41494e00000000b41a000053495a450c00000000000000;
0x118000000180000000800000058595a498416000000000000a005000000000001;
0x10100000102000001030000010400000105000001060000010700000108000001;
0x1090000010a0000010b0000010c0000010d0000010e0000010f00000110000001;
0x11100000112000001130000011400000115000001160000011700000100010001;
0x10101000102010001030100010401000105010001060100010701000108010001;
0x1090100010a0100010b0100010c0100010d0100010e0100010f01000110010001;
0x11101000112010001130100011401000115010001160100011701000100020001;
0x10102000102020001030200010402000105020001060200010702000108020001;
0x1090200010a0200010b0200010c0200010d0200010e0200010f02000110020001;
0x11102000112020001130200011402000115020001160200011702000100030001;
0x10103000102030001030300010403000105030001060300010703000108030001;
0x1090300010a0300010b0300010c0300010d0300010e0300010f03000110030001;
0x11103000112030001130300011403000115030001160300011703000100040001;
0x10104000102040001030400010404000105040001060400010704000108040001;
0x1090400010a0400010b0400010c0400010d0400010e0400010f04000110040001;
0x11104000112040001130400011404000115040001160400011704000100050001;
0x10105000102050001030500010405000105050001060500010705000108050001;
0x1090500010a0500010b0500010c0500010d0500010e0500010f05000110050001;
0x11105000112050001130500011405000115050001160500011705000100060001;
0x10106000102060001030600010406000105060001060600010706000108060001;
0x1090600010a0600010b0600010c0600010d0600010e0600010f06000110060001;
0x11106000112060001130600011406000115060001160600011706000100070001;
0x10107000102070001030700010407000105070001060700010707000108070001;
0x1090700010a0700010b0700010c0700010d0700010e0700010f07000110070001;
0x11107000112070001130700011407000115070001160700011707000100080001;
0x10108000102080001030800010408000105080001060800010708000108080001;
0x1090800010a0800010b0800010c0800010d0800010e0800010f08000110080001;
0x11108000112080001130800011408000115080001160800011708000100090001;
0x10109000102090001030900010409000105090001060900010709000108090001;
0x1090900010a0900010b0900010c0900010d0900010e0900010f09000110090001;
0x111090001120900011309000114090001150900011609000117090001000a0001;
0x1010a0001020a0001030a0001040a0001050a0001060a0001070a0001080a0001;
0x1090a00010a0a00010b0a00010c0a00010d0a00010e0a00010f0a0001100a0001;
0x1110a0001120a0001130a0001140a0001150a0001160a0001170a0001000b0001;
0x1010b0001020b0001030b0001040b0001050b0001060b0001070b0001080b0001;
0x1090b00010a0b00010b0b00010c0b00010d0b00010e0b00010f0b0001100b0001;
0x1110b0001120b0001130b0001140b0001150b0001160b0001170b0001000c0001;
0x1010c0001020c0001030c0001040c0001050c0001060c0001070c0001080c0001;
0x1090c00010a0c00010b0c00010c0c00010d0c00010e0c00010f0c0001100c0001;
0x1110c0001120c0001130c0001140c0001150c0001160c0001170c0001000d0001;
0x1010d0001020d0001030d0001040d0001050d0001060d0001070d0001080d0001;
0x1090d00010a0d00010b0d00010c0d00010d0d00010e0d00010f0d0001100d0001;
0x1110d0001120d0001130d0001140d0001150d0001160d0001170d0001000e0001;
0x1010e0001020e0001030e0001040e0001050e0001060e0001070e0001080e0001;
0x1090e00010a0e00010b0e00010c0e00010d0e00010e0e00010f0e0001100e0001;
0x1110e0001120e0001130e0001140e0001150e0001160e0001170e0001000f0001;
0x1010f0001020f0001030f0001040f0001050f0001060f0001070f0001080f0001;
0x1090f00010a0f00010b0f00010c0f00010d0f00010e0f00010f0f0001100f0001;
0x1110f0001120f0001130f0001140f0001150f0001160f0001170f000100100001;
0x10110000102100001031000010410000105100001061000010710000108100001;
0x1091000010a1000010b1000010c1000010d1000010e1000010f10000110100001;
0x11110000112100001131000011410000115100001161000011710000100110001;
0x10111000102110001031100010411000105110001061100010711000108110001;
0x1091100010a1100010b1100010c1100010d1100010e1100010f11000110110001;
0x11111000112110001131100011411000115110001161100011711000100120001;
0x10112000102120001031200010412000105120001061200010712000108120001;
0x1091200010a1200010b1200010c1200010d1200010e1200010f12000110120001;
0x11112000112120001131200011412000115120001161200011712000100130001;
0x10113000102130001031300010413000105130001061300010713000108130001;
0x1091300010a1300010b1300010c1300010d1300010e1300010f13000110130001;
0x11113000112130001131300011413000115130001161300011713000100140001;
0x10114000102140001031400010414000105140001061400010714000108140001;
0x1091400010a1400010b1400010c1400010d1400010e1400010f14000110140001;
0x11114000112140001131400011414000115140001161400011714000100150001;
0x10115000102150001031500010415000105150001061500010715000108150001;
0x1091500010a1500010b1500010c1500010d1500010e1500010f15000110150001;
0x11115000112150001131500011415000115150001161500011715000100160001;
0x10116000102160001031600010416000105160001061600010716000108160001;
0x1091600010a1600010b1600010c1600010d1600010e1600010f16000110160001;
0x11116000112160001131600011416000115160001161600011716000100170001;
0x10117000102170001031700010417000105170001061700010717000108170001;
0x1091700010a1700010b1700010c1700010d1700010e1700010f17000110170001;
0x11117000112170001131700011417000115170001161700011717000100000101;
0x10100010102000101030001010400010105000101060001010700010110000101;
0x11100010112000101130001011400010115000101160001011700010100080101;
0x1170801010009010117090101000a0101170a0101000b0101170b0101000c0101;
0x1170c0101000d0101170d0101000e0101170e0101000f0101170f010100170101;
0x10117010102170101031701010417010105170101061701010717010110170101;
0x11117010112170101131701011417010115170101161701011717010100000201;
0x10100020102000201030002010400020105000201060002010700020110000201;
0x11100020112000201130002011400020115000201160002011700020100080201;
0x1170802010009020117090201000a0201170a0201000b0201170b0201000c0201;
0x1170c0201000d0201170d0201000e0201170e0201000f0201170f020100170201;
0x10117020102170201031702010417020105170201061702010717020110170201;
0x11117020112170201131702011417020115170201161702011717020100000301;
0x10100030102000301030003010400030105000301060003010700030110000301;
0x11100030112000301130003011400030115000301160003011700030100080301;
0x1170803010009030117090301000a0301170a0301000b0301170b0301000c0301;
0x1170c0301000d0301170d0301000e0301170e0301000f0301170f030100170301;
0x10117030102170301031703010417030105170301061703010717030110170301;
0x11117030112170301131703011417030115170301161703011717030100000401;
0x10100040102000401030004010400040105000401060004010700040110000401;
0x11100040112000401130004011400040115000401160004011700040100080401;
0x1170804010009040117090401000a0401170a0401000b0401170b0401000c0401;
0x1170c0401000d0401170d0401000e0401170e0401000f0401170f040100170401;
0x10117040102170401031704010417040105170401061704010717040110170401;
0x11117040112170401131704011417040115170401161704011717040100000501;
0x10100050102000501030005010400050105000501060005010700050110000501;
0x11100050112000501130005011400050115000501160005011700050100080501;
0x1170805010009050117090501000a0501170a0501000b0501170b0501000c0501;
0x1170c0501000d0501170d0501000e0501170e0501000f0501170f050100170501;
0x10117050102170501031705010417050105170501061705010717050110170501;
0x11117050112170501131705011417050115170501161705011717050100000601;
0x10100060102000601030006010400060105000601060006010700060110000601;
0x11100060112000601130006011400060115000601160006011700060100080601;
0x1170806010009060117090601000a0601170a0601000b0601170b0601000c0601;
0x1170c0601000d0601170d0601000e0601170e0601000f0601170f060100170601;
0x10117060102170601031706010417060105170601061706010717060110170601;
0x11117060112170601131706011417060115170601161706011717060100000701;
0x10100070102000701030007010400070105000701060007010700070108000701;
0x1090007010a0007010b0007010c0007010d0007010e0007010f00070110000701;
0x11100070112000701130007011400070115000701160007011700070100010701;
0x10101070102010701030107010401070105010701060107010701070108010701;
0x1090107010a0107010b0107010c0107010d0107010e0107010f01070110010701;
0x11101070112010701130107011401070115010701160107011701070100020701;
0x10102070102020701030207010402070105020701060207010702070108020701;
0x1090207010a0207010b0207010c0207010d0207010e0207010f02070110020701;
0x11102070112020701130207011402070115020701160207011702070100030701;
0x10103070102030701030307010403070105030701060307010703070108030701;
0x1090307010a0307010b0307010c0307010d0307010e0307010f03070110030701;
0x11103070112030701130307011403070115030701160307011703070100040701;
0x10104070102040701030407010404070105040701060407010704070108040701;
0x1090407010a0407010b0407010c0407010d0407010e0407010f04070110040701;
0x11104070112040701130407011404070115040701160407011704070100050701;
0x10105070102050701030507010405070105050701060507010705070108050701;
0x1090507010a0507010b0507010c0507010d0507010e0507010f05070110050701;
0x11105070112050701130507011405070115050701160507011705070100060701;
0x10106070102060701030607010406070105060701060607010706070108060701;
0x1090607010a0607010b0607010c0607010d0607010e0607010f06070110060701;
0x11106070112060701130607011406070115060701160607011706070100070701;
0x10107070102070701030707010407070105070701060707010707070108070701;
0x1090707010a0707010b0707010c0707010d0707010e0707010f07070110070701;
0x11107070112070701130707011407070115070701160707011707070100080701;
0x10108070102080701030807010408070105080701060807010708070108080701;
0x1090807010a0807010b0807010c0807010d0807010e0807010f08070110080701;
0x11108070112080701130807011408070115080701160807011708070100090701;
0x10109070102090701030907010409070105090701060907010709070108090701;
0x1090907010a0907010b0907010c0907010d0907010e0907010f09070110090701;
0x111090701120907011309070114090701150907011609070117090701000a0701;
0x1010a0701020a0701030a0701040a0701050a0701060a0701070a0701080a0701;
0x1090a07010a0a07010b0a07010c0a07010d0a07010e0a07010f0a0701100a0701;
0x1110a0701120a0701130a0701140a0701150a0701160a0701170a0701000b0701;
0x1010b0701020b0701030b0701040b0701050b0701060b0701070b0701080b0701;
0x1090b07010a0b07010b0b07010c0b07010d0b07010e0b07010f0b0701100b0701;
0x1110b0701120b0701130b0701140b0701150b0701160b0701170b0701000c0701;
0x1010c0701020c0701030c0701040c0701050c0701060c0701070c0701080c0701;
0x1090c07010a0c07010b0c07010c0c07010d0c07010e0c07010f0c0701100c0701;
0x1110c0701120c0701130c0701140c0701150c0701160c0701170c0701000d0701;
0x1010d0701020d0701030d0701040d0701050d0701060d0701070d0701080d0701;
0x1090d07010a0d07010b0d07010c0d07010d0d07010e0d07010f0d0701100d0701;
0x1110d0701120d0701130d0701140d0701150d0701160d0701170d0701000e0701;
0x1010e0701020e0701030e0701040e0701050e0701060e0701070e0701080e0701;
0x1090e07010a0e07010b0e07010c0e07010d0e07010e0e07010f0e0701100e0701;
0x1110e0701120e0701130e0701140e0701150e0701160e0701170e0701000f0701;
0x1010f0701020f0701030f0701040f0701050f0701060f0701070f0701080f0701;
0x1090f07010a0f07010b0f07010c0f07010d0f07010e0f07010f0f0701100f0701;
0x1110f0701120f0701130f0701140f0701150f0701160f0701170f070100100701;
0x10110070102100701031007010410070105100701061007010710070108100701;
0x1091007010a1007010b1007010c1007010d1007010e1007010f10070110100701;
0x11110070112100701131007011410070115100701161007011710070100110701;
0x10111070102110701031107010411070105110701061107010711070108110701;
0x1091107010a1107010b1107010c1107010d1107010e1107010f11070110110701;
0x11111070112110701131107011411070115110701161107011711070100120701;
0x10112070102120701031207010412070105120701061207010712070108120701;
0x1091207010a1207010b1207010c1207010d1207010e1207010f12070110120701;
0x11112070112120701131207011412070115120701161207011712070100130701;
0x10113070102130701031307010413070105130701061307010713070108130701;
0x1091307010a1307010b1307010c1307010d1307010e1307010f13070110130701;
0x11113070112130701131307011413070115130701161307011713070100140701;
0x10114070102140701031407010414070105140701061407010714070108140701;
0x1091407010a1407010b1407010c1407010d1407010e1407010f14070110140701;
0x11114070112140701131407011414070115140701161407011714070100150701;
0x10115070102150701031507010415070105150701061507010715070108150701;
0x1091507010a1507010b1507010c1507010d1507010e1507010f15070110150701;
0x11115070112150701131507011415070115150701161507011715070100160701;
0x10116070102160701031607010416070105160701061607010716070108160701;
0x1091607010a1607010b1607010c1607010d1607010e1607010f16070110160701;
0x11116070112160701131607011416070115160701161607011716070100170701;
0x10117070102170701031707010417070105170701061707010717070108170701;
0x1091707010a1707010b1707010c1707010d1707010e1707010f17070110170701;
0x11117070112170701131707011417070115170701161707011717070152474241;
0x1000400000000000000000000847e87ff847e87ff847e87ff847e87ff847e87ff;
0x1847e87ff847e87ff847e87ff847e87ff847e87ff847e87ff847e87ff847e87ff;
0x1847e87ff847e87ff847e87ff847e87ff847e87ff847e87ff847e87ff847e87ff;
0x1847e87ff847e87ff847e87ff847e87ff847e87ff847e87ff847e87ff847e87ff;
0x1847e87ff847e87ff847e87ff847e87ff847e87ff847e87ff847e87ff847e87ff;
0x1847e87ff847e87ff847e87ff847e87ff847e87ff847e87ff847e87ff847e87ff;
0x1847e87ff847e87ff847e87ff847e87ff847e87ff847e87ff847e87ff847e87ff;
0x1847e87ff847e87ff847e87ff847e87ff847e87ff847e87ff847e87ff847e87ff;
0x1847e87ff847e87ff847e87ff847e87ff847e87ff847e87ff847e87ff847e87ff;
0x1847e87ff847e87ff847e87ff847e87ff847e87ff847e87ff847e87ff847e87ff;
0x1847e87ff847e87ff847e87ff847e87ff847e87ff847e87ff847e87ff847e87ff;
0x1847e87ff847e87ff847e87ff847e87ff847e87ff847e87ff847e87ff847e87ff;
0x1847e87ff847e87ff847e87ff847e87ff847e87ff847e87ff847e87ff847e87ff;
0x1847e87ff847e87ff847e87ff847e87ff847e87ff847e87ff847e87ff847e87ff;
0x1847e87ff847e87ff847e87ff847e87ff847e87ff847e87ff847e87ff847e87ff;
0x1847e87ff847e87ff847e87ff847e87ff847e87ff847e87ff847e87ff847e87ff;
0x1847e87ff847e87ff847e87ff847e87ff847e87ff847e87ff847e87ff847e87ff;
0x1847e87ff847e87ff847e87ff847e87ff847e87ff847e87ff847e87ff847e87ff;
0x1847e87ff847e87ff847e87ff847e87ff847e87ff847e87ff847e87ff847e87ff;
0x1847e87ff847e87ff847e87ff847e87ff847e87ff847e87ff847e87ff847e87ff;
0x1847e87ff847e87ff847e87ff847e87ff847e87ff847e87ff847e87ff847e87ff;
0x1847e87ff847e87ff847e87ff847e87ff847e87ff847e87ff847e87ff847e87ff;
0x1847e87ff847e87ff847e87ff847e87ff847e87ff847e87ff847e87ff847e87ff;
0x1847e87ff847e87ff847e87ff847e87ff847e87ff000000000000000000000000;
0x10000000000000000000000000000000000000000000000000000000000000000;
0x10000000000000000000000000000000000000000000000000000000000000000;
0x10000000000000000000000000000000000000000000000000000000000000000;
0x10000000000000000000000000000000000000000000000000000000000000000;
0x10000000000000000000000000000000000000000000000000000000000000000;
0x10000000000000000000000000000000000000000000000000000000000000000;
0x10000000000000000000000000000000000000000000000000000000000000000;
0x10000000000000000000000000000000000000000000000000000000000000000;
0x10000000000000000].
(** redeclipse/prefabs/dungeon/dungeon_stair2.vox (3016 bytes) *)
Definition vox_dungeon_dungeon_stair2 : list Z := [
0x1564f5820960000004d41494e00000000b40b000053495a450c00000000000000;
0x110000000080000001000000058595a498407000000000000e001000000000001;
0x10100000100010001010100010002000101020001000300010103000100040001;
0x10104000100050001010500010006000101060001000700010107000100000101;
0x10100010102000101030001010201010103010101020201010302010102030101;
0x10303010102040101030401010205010103050101020601010306010100070101;
0x10107010102070101030701010000020101000201020002010300020104000201;
0x10500020104010201050102010402020105020201040302010503020104040201;
0x10504020104050201050502010406020105060201000702010107020102070201;
0x10307020104070201050702010000030101000301020003010300030104000301;
0x10500030106000301070003010601030107010301060203010702030106030301;
0x10703030106040301070403010605030107050301060603010706030100070301;
0x10107030102070301030703010407030105070301060703010707030100000401;
0x10100040102000401030004010400040105000401060004010700040108000401;
0x10900040108010401090104010802040109020401080304010903040108040401;
0x10904040108050401090504010806040109060401000704010107040102070401;
0x10307040104070401050704010607040107070401080704010907040100000501;
0x10100050102000501030005010400050105000501060005010700050108000501;
0x1090005010a0005010b0005010a0105010b0105010a0205010b0205010a030501;
0x10b0305010a0405010b0405010a0505010b0505010a0605010b06050100070501;
0x10107050102070501030705010407050105070501060705010707050108070501;
0x1090705010a0705010b0705010000060101000601020006010300060104000601;
0x105000601060006010700060108000601090006010a0006010b0006010c000601;
0x10d0006010c0106010d0106010c0206010d0206010c0306010d0306010c040601;
0x10d0406010c0506010d0506010c0606010d060601000706010107060102070601;
0x1030706010407060105070601060706010707060108070601090706010a070601;
0x10b0706010c0706010d0706010000070101000701020007010300070104000701;
0x105000701060007010700070108000701090007010a0007010b0007010c000701;
0x10d0007010e0007010f0007010e0107010f0107010e0207010f0207010e030701;
0x10f0307010e0407010f0407010e0507010f0507010e0607010f06070100070701;
0x10107070102070701030707010407070105070701060707010707070108070701;
0x1090707010a0707010b0707010c0707010d0707010e0707010f07070100000801;
0x10100080102000801030008010400080105000801060008010700080108000801;
0x1090008010a0008010b0008010c0008010d0008010e0008010f00080100010801;
0x10101080100020801010208010003080101030801000408010104080100050801;
0x10105080100060801010608010007080101070801020708010307080104070801;
0x105070801060708010707080108070801090708010a0708010b0708010c070801;
0x10d0708010e0708010f0708010200090103000901040009010500090106000901;
0x10700090108000901090009010a0009010b0009010c0009010d0009010e000901;
0x10f00090102010901030109010202090103020901020309010303090102040901;
0x10304090102050901030509010206090103060901020709010307090104070901;
0x105070901060709010707090108070901090709010a0709010b0709010c070901;
0x10d0709010e0709010f07090104000a0105000a0106000a0107000a0108000a01;
0x109000a010a000a010b000a010c000a010d000a010e000a010f000a0104010a01;
0x105010a0104020a0105020a0104030a0105030a0104040a0105040a0104050a01;
0x105050a0104060a0105060a0104070a0105070a0106070a0107070a0108070a01;
0x109070a010a070a010b070a010c070a010d070a010e070a010f070a0106000b01;
0x107000b0108000b0109000b010a000b010b000b010c000b010d000b010e000b01;
0x10f000b0106010b0107010b0106020b0107020b0106030b0107030b0106040b01;
0x107040b0106050b0107050b0106060b0107060b0106070b0107070b0108070b01;
0x109070b010a070b010b070b010c070b010d070b010e070b010f070b0108000c01;
0x109000c010a000c010b000c010c000c010d000c010e000c010f000c0108010c01;
0x109010c0108020c0109020c0108030c0109030c0108040c0109040c0108050c01;
0x109050c0108060c0109060c0108070c0109070c010a070c010b070c010c070c01;
0x10d070c010e070c010f070c010a000d010b000d010c000d010d000d010e000d01;
0x10f000d010a010d010b010d010a020d010b020d010a030d010b030d010a040d01;
0x10b040d010a050d010b050d010a060d010b060d010a070d010b070d010c070d01;
0x10d070d010e070d010f070d010c000e010d000e010e000e010f000e010c010e01;
0x10d010e010c020e010d020e010c030e010d030e010c040e010d040e010c050e01;
0x10d050e010c060e010d060e010c070e010d070e010e070e010f070e010e000f01;
0x10f000f010e010f010f010f010e020f010f020f010e030f010f030f010e040f01;
0x10f040f010e050f010f050f010e060f010f060f010e070f010f070f0152474241;
0x1000400000000000000000000847e87ff847e87ff847e87ff847e87ff847e87ff;
0x1847e87ff847e87ff847e87ff847e87ff847e87ff847e87ff847e87ff847e87ff;
0x1847e87ff847e87ff847e87ff847e87ff847e87ff847e87ff847e87ff847e87ff;
0x1847e87ff847e87ff847e87ff847e87ff847e87ff847e87ff847e87ff847e87ff;
0x1847e87ff847e87ff847e87ff847e87ff847e87ff847e87ff847e87ff847e87ff;
0x1847e87ff847e87ff847e87ff847e87ff847e87ff847e87ff847e87ff847e87ff;
0x1847e87ff847e87ff847e87ff847e87ff847e87ff847e87ff847e87ff847e87ff;
0x1847e87ff847e87ff847e87ff847e87ff847e87ff847e87ff847e87ff847e87ff;
0x1847e87ff847e87ff847e87ff847e87ff847e87ff847e87ff847e87ff847e87ff;
0x1847e87ff847e87ff847e87ff847e87ff847e87ff847e87ff847e87ff847e87ff;
0x1847e87ff847e87ff847e87ff847e87ff847e87ff847e87ff847e87ff847e87ff;
0x1847e87ff847e87ff847e87ff847e87ff847e87ff847e87ff847e87ff847e87ff;
0x1847e87ff847e87ff847e87ff847e87ff847e87ff847e87ff847e87ff847e87ff;
0x1847e87ff847e87ff847e87ff847e87ff847e87ff847e87ff847e87ff847e87ff;
0x1847e87ff847e87ff847e87ff847e87ff847e87ff847e87ff847e87ff847e87ff;
0x1847e87ff847e87ff847e87ff847e87ff847e87ff847e87ff847e87ff847e87ff;
0x1847e87ff847e87ff847e87ff847e87ff847e87ff847e87ff847e87ff847e87ff;
0x1847e87ff847e87ff847e87ff847e87ff847e87ff847e87ff847e87ff847e87ff;
0x1847e87ff847e87ff847e87ff847e87ff847e87ff847e87ff847e87ff847e87ff;
0x1847e87ff847e87ff847e87ff847e87ff847e87ff847e87ff847e87ff847e87ff;
0x1847e87ff847e87ff847e87ff847e87ff847e87ff847e87ff847e87ff847e87ff;
0x1847e87ff847e87ff847e87ff847e87ff847e87ff847e87ff0000000000000000;
0x10000000000000000000000000000000000000000000000000000000000000000;
0x10000000000000000000000000000000000000000000000000000000000000000;
0x10000000000000000000000000000000000000000000000000000000000000000;
0x10000000000000000000000000000000000000000000000000000000000000000;
0x10000000000000000000000000000000000000000000000000000000000000000;
0x10000000000000000000000000000000000000000000000000000000000000000;
0x10000000000000000000000000000000000000000000000000000000000000000;
0x10000000000000000000000000000000000000000000000000000000000000000;
0x10000000000000000000000000000000000000000000000000000000000000000;
0x10000000000000000000000000000000000000000000000000000000000000000;
0x10000000000000000].
(** redeclipse/prefabs/dungeon/dungeon_walkway.vox (1992 bytes) *)
Definition vox_dungeon_dungeon_walkway : list Z := [
0x1564f5820960000004d41494e00000000b407000053495a450c00000000000000;
0x108000000080000000800000058595a498403000000000000e000000000000001;
0x10100000102000001030000010400000105000001060000010700000100010001;
0x10101000102010001030100010401000105010001060100010701000100020001;
0x10102000102020001030200010402000105020001060200010702000100030001;
0x10103000102030001030300010403000105030001060300010703000100040001;
0x10104000102040001030400010404000105040001060400010704000100050001;
0x10105000102050001030500010405000105050001060500010705000100060001;
0x10106000102060001030600010406000105060001060600010706000100070001;
0x10107000102070001030700010407000105070001060700010707000100000101;
0x10100010102000101030001010400010105000101060001010700010100070101;
0x10107010102070101030701010407010105070101060701010707010100000201;
0x10100020102000201030002010400020105000201060002010700020100070201;
0x10107020102070201030702010407020105070201060702010707020100000301;
0x10100030102000301030003010400030105000301060003010700030100070301;
0x10107030102070301030703010407030105070301060703010707030100000401;
0x10100040102000401030004010400040105000401060004010700040100070401;
0x10107040102070401030704010407040105070401060704010707040100000501;
0x10100050102000501030005010400050105000501060005010700050100070501;
0x10107050102070501030705010407050105070501060705010707050100000601;
0x10100060102000601030006010400060105000601060006010700060100070601;
0x10107060102070601030706010407060105070601060706010707060100000701;
0x10100070102000701030007010400070105000701060007010700070100010701;
0x10101070102010701030107010401070105010701060107010701070100020701;
0x10102070102020701030207010402070105020701060207010702070100030701;
0x10103070102030701030307010403070105030701060307010703070100040701;
0x10104070102040701030407010404070105040701060407010704070100050701;
0x10105070102050701030507010405070105050701060507010705070100060701;
0x10106070102060701030607010406070105060701060607010706070100070701;
0x10107070102070701030707010407070105070701060707010707070152474241;
0x1000400000000000000000000847e87ff847e87ff847e87ff847e87ff847e87ff;
0x1847e87ff847e87ff847e87ff847e87ff847e87ff847e87ff847e87ff847e87ff;
0x1847e87ff847e87ff847e87ff847e87ff847e87ff847e87ff847e87ff847e87ff;
0x1847e87ff847e87ff847e87ff847e87ff847e87ff847e87ff847e87ff847e87ff;
0x1847e87ff847e87ff847e87ff847e87ff847e87ff847e87ff847e87ff847e87ff;
0x1847e87ff847e87ff847e87ff847e87ff847e87ff847e87ff847e87ff847e87ff;
0x1847e87ff847e87ff847e87ff847e87ff847e87ff847e87ff847e87ff847e87ff;
0x1847e87ff847e87ff847e87ff847e87ff847e87ff847e87ff847e87ff847e87ff;
0x1847e87ff847e87ff847e87ff847e87ff847e87ff847e87ff847e87ff847e87ff;
0x1847e87ff847e87ff847e87ff847e87ff847e87ff847e87ff847e87ff847e87ff;
0x1847e87ff847e87ff847e87ff847e87ff847e87ff847e87ff847e87ff847e87ff;
0x1847e87ff847e87ff847e87ff847e87ff847e87ff847e87ff847e87ff847e87ff;
0x1847e87ff847e87ff847e87ff847e87ff847e87ff847e87ff847e87ff847e87ff;
0x1847e87ff847e87ff847e87ff847e87ff847e87ff847e87ff847e87ff847e87ff;
0x1847e87ff847e87ff847e87ff847e87ff847e87ff847e87ff847e87ff847e87ff;
0x1847e87ff847e87ff847e87ff847e87ff847e87ff847e87ff847e87ff847e87ff;
0x1847e87ff847e87ff847e87ff847e87ff847e87ff847e87ff847e87ff847e87ff;
0x1847e87ff847e87ff847e87ff847e87ff847e87ff000000000000000000000000;
0x10000000000000000000000000000000000000000000000000000000000000000;
0x10000000000000000000000000000000000000000000000000000000000000000;
0x10000000000000000000000000000000000000000000000000000000000000000;
0x10000000000000000000000000000000000000000000000000000000000000000;
0x10000000000000000000000000000000000000000000000000000000000000000;
0x10000000000000000000000000000000000000000000000000000000000000000;
0x10000000000000000000000000000000000000000000000000000000000000000;
0x10000000000000000000000000000000000000000000000000000000000000000;
0x10000000000000000000000000000000000000000000000000000000000000000;
0x10000000000000000000000000000000000000000000000000000000000000000;
0x10000000000000000000000000000000000000000000000000000000000000000;
0x10000000000000000000000000000000000000000000000000000000000000000;
0x10000000000000000000000000000000000000000000000000000000000000000;
0x10000000000000000000000000000000000000000000000000000000000000000;
0x10000000000000000].
(** redeclipse/prefabs/dungeon/dungeon_walkway3.vox (3784 bytes) *)
Definition vox_dungeon_dungeon_walkway3 : list Z := [
0x1564f5820960000004d41494e00000000b40e000053495a450c00000000000000;
0x118000000080000000800000058595a49840a000000000000a002000000000001;
0x10100000102000001030000010400000105000001060000010700000108000001;
0x1090000010a0000010b0000010c0000010d0000010e0000010f00000110000001;
0x11100000112000001130000011400000115000001160000011700000100010001;
0x10101000102010001030100010401000105010001060100010701000108010001;
0x1090100010a0100010b0100010c0100010d0100010e0100010f01000110010001;
0x11101000112010001130100011401000115010001160100011701000100020001;
0x10102000102020001030200010402000105020001060200010702000108020001;
0x1090200010a0200010b0200010c0200010d0200010e0200010f02000110020001;
0x11102000112020001130200011402000115020001160200011702000100030001;
0x10103000102030001030300010403000105030001060300010703000108030001;
0x1090300010a0300010b0300010c0300010d0300010e0300010f03000110030001;
0x11103000112030001130300011403000115030001160300011703000100040001;
0x10104000102040001030400010404000105040001060400010704000108040001;
0x1090400010a0400010b0400010c0400010d0400010e0400010f04000110040001;
0x11104000112040001130400011404000115040001160400011704000100050001;
0x10105000102050001030500010405000105050001060500010705000108050001;
0x1090500010a0500010b0500010c0500010d0500010e0500010f05000110050001;
0x11105000112050001130500011405000115050001160500011705000100060001;
0x10106000102060001030600010406000105060001060600010706000108060001;
0x1090600010a0600010b0600010c0600010d0600010e0600010f06000110060001;
0x11106000112060001130600011406000115060001160600011706000100070001;
0x10107000102070001030700010407000105070001060700010707000108070001;
0x1090700010a0700010b0700010c0700010d0700010e0700010f07000110070001;
0x11107000112070001130700011407000115070001160700011707000100000101;
0x10100010102000101030001010400010105000101060001010700010108000101;
0x1090001010a0001010b0001010c0001010d0001010e0001010f00010110000101;
0x11100010112000101130001011400010115000101160001011700010100070101;
0x10107010102070101030701010407010105070101060701010707010108070101;
0x1090701010a0701010b0701010c0701010d0701010e0701010f07010110070101;
0x11107010112070101130701011407010115070101160701011707010100000201;
0x10100020102000201030002010400020105000201060002010700020108000201;
0x1090002010a0002010b0002010c0002010d0002010e0002010f00020110000201;
0x11100020112000201130002011400020115000201160002011700020100070201;
0x10107020102070201030702010407020105070201060702010707020108070201;
0x1090702010a0702010b0702010c0702010d0702010e0702010f07020110070201;
0x11107020112070201130702011407020115070201160702011707020100000301;
0x10100030102000301030003010400030105000301060003010700030108000301;
0x1090003010a0003010b0003010c0003010d0003010e0003010f00030110000301;
0x11100030112000301130003011400030115000301160003011700030100070301;
0x10107030102070301030703010407030105070301060703010707030108070301;
0x1090703010a0703010b0703010c0703010d0703010e0703010f07030110070301;
0x11107030112070301130703011407030115070301160703011707030100000401;
0x10100040102000401030004010400040105000401060004010700040108000401;
0x1090004010a0004010b0004010c0004010d0004010e0004010f00040110000401;
0x11100040112000401130004011400040115000401160004011700040100070401;
0x10107040102070401030704010407040105070401060704010707040108070401;
0x1090704010a0704010b0704010c0704010d0704010e0704010f07040110070401;
0x11107040112070401130704011407040115070401160704011707040100000501;
0x10100050102000501030005010400050105000501060005010700050108000501;
0x1090005010a0005010b0005010c0005010d0005010e0005010f00050110000501;
0x11100050112000501130005011400050115000501160005011700050100070501;
0x10107050102070501030705010407050105070501060705010707050108070501;
0x1090705010a0705010b0705010c0705010d0705010e0705010f07050110070501;
0x11107050112070501130705011407050115070501160705011707050100000601;
0x10100060102000601030006010400060105000601060006010700060108000601;
0x1090006010a0006010b0006010c0006010d0006010e0006010f00060110000601;
0x11100060112000601130006011400060115000601160006011700060100070601;
0x10107060102070601030706010407060105070601060706010707060108070601;
0x1090706010a0706010b0706010c0706010d0706010e0706010f07060110070601;
0x11107060112070601130706011407060115070601160706011707060100000701;
0x10100070102000701030007010400070105000701060007010700070108000701;
0x1090007010a0007010b0007010c0007010d0007010e0007010f00070110000701;
0x11100070112000701130007011400070115000701160007011700070100010701;
0x10101070102010701030107010401070105010701060107010701070108010701;
0x1090107010a0107010b0107010c0107010d0107010e0107010f01070110010701;
0x11101070112010701130107011401070115010701160107011701070100020701;
0x10102070102020701030207010402070105020701060207010702070108020701;
0x1090207010a0207010b0207010c0207010d0207010e0207010f02070110020701;
0x11102070112020701130207011402070115020701160207011702070100030701;
0x10103070102030701030307010403070105030701060307010703070108030701;
0x1090307010a0307010b0307010c0307010d0307010e0307010f03070110030701;
0x11103070112030701130307011403070115030701160307011703070100040701;
0x10104070102040701030407010404070105040701060407010704070108040701;
0x1090407010a0407010b0407010c0407010d0407010e0407010f04070110040701;
0x11104070112040701130407011404070115040701160407011704070100050701;
0x10105070102050701030507010405070105050701060507010705070108050701;
0x1090507010a0507010b0507010c0507010d0507010e0507010f05070110050701;
0x11105070112050701130507011405070115050701160507011705070100060701;
0x10106070102060701030607010406070105060701060607010706070108060701;
0x1090607010a0607010b0607010c0607010d0607010e0607010f06070110060701;
0x11106070112060701130607011406070115060701160607011706070100070701;
0x10107070102070701030707010407070105070701060707010707070108070701;
0x1090707010a0707010b0707010c0707010d0707010e0707010f07070110070701;
0x11107070112070701130707011407070115070701160707011707070152474241;
0x1000400000000000000000000847e87ff847e87ff847e87ff847e87ff847e87ff;
0x1847e87ff847e87ff847e87ff847e87ff847e87ff847e87ff847e87ff847e87ff;
0x1847e87ff847e87ff847e87ff847e87ff847e87ff847e87ff847e87ff847e87ff;
0x1847e87ff847e87ff847e87ff847e87ff847e87ff847e87ff847e87ff847e87ff;
0x1847e87ff847e87ff847e87ff847e87ff847e87ff847e87ff847e87ff847e87ff;
0x1847e87ff847e87ff847e87ff847e87ff847e87ff847e87ff847e87ff847e87ff;
0x1847e87ff847e87ff847e87ff847e87ff847e87ff847e87ff847e87ff847e87ff;
0x1847e87ff847e87ff847e87ff847e87ff847e87ff847e87ff847e87ff847e87ff;
0x1847e87ff847e87ff847e87ff847e87ff847e87ff847e87ff847e87ff847e87ff;
0x1847e87ff847e87ff847e87ff847e87ff847e87ff847e87ff847e87ff847e87ff;
0x1847e87ff847e87ff847e87ff847e87ff847e87ff847e87ff847e87ff847e87ff;
0x1847e87ff847e87ff847e87ff847e87ff847e87ff847e87ff847e87ff847e87ff;
0x1847e87ff847e87ff847e87ff847e87ff847e87ff847e87ff847e87ff847e87ff;
0x1847e87ff847e87ff847e87ff847e87ff847e87ff847e87ff847e87ff847e87ff;
0x1847e87ff847e87ff847e87ff847e87ff847e87ff847e87ff847e87ff847e87ff;
0x1847e87ff847e87ff847e87ff847e87ff847e87ff847e87ff847e87ff847e87ff;
0x1847e87ff847e87ff847e87ff847e87ff847e87ff847e87ff847e87ff847e87ff;
0x1847e87ff847e87ff847e87ff847e87ff847e87ff847e87ff847e87ff847e87ff;
0x1847e87ff847e87ff847e87ff847e87ff847e87ff847e87ff847e87ff847e87ff;
0x1847e87ff847e87ff847e87ff847e87ff847e87ff847e87ff847e87ff847e87ff;
0x1847e87ff847e87ff847e87ff847e87ff847e87ff847e87ff847e87ff847e87ff;
0x1847e87ff847e87ff847e87ff847e87ff847e87ff847e87ff847e87ff847e87ff;
0x1847e87ff847e87ff847e87ff847e87ff00000000000000000000000000000000;
0x10000000000000000000000000000000000000000000000000000000000000000;
0x10000000000000000000000000000000000000000000000000000000000000000;
0x10000000000000000000000000000000000000000000000000000000000000000;
0x10000000000000000000000000000000000000000000000000000000000000000;
0x10000000000000000000000000000000000000000000000000000000000000000;
0x10000000000000000000000000000000000000000000000000000000000000000;
0x10000000000000000000000000000000000000000000000000000000000000000;
0x10000000000000000000000000000000000000000000000000000000000000000;
0x10000000000000000000000000000000000000000000000000000000000000000;
0x10000000000000000].
(** redeclipse/prefabs/egypt/beach_1side.vox (3144 bytes) *)
Definition vox_egypt_beach_1side : list Z := [
0x1564f5820960000004d41494e00000000340c000053495a450c00000000000000;
0x108000000080000000800000058595a4904080000000000000002000000000017;
0x10100001702000017030000170400001705000017060000170700001700010017;
0x10101001702010017030100170401001705010017060100170701001700020017;
0x10102001702020017030200170402001705020017060200170702001700030017;
0x10103001702030017030300170403001705030017060300170703001700040017;
0x10104001702040017030400170404001705040017060400170704001700050017;
0x10105001702050017030500170405001705050017060500170705001700060017;
0x10106001702060017030600170406001705060017060600170706001700070017;
0x10107001702070017030700170407001705070017060700170707001700000101;
0x10100010102000101030001010400010105000101060001010700010100010117;
0x10101011702010117030101170401011705010117060101170701011700020117;
0x10102011702020117030201170402011705020117060201170702011700030117;
0x10103011702030117030301170403011705030117060301170703011700040117;
0x10104011702040117030401170404011705040117060401170704011700050117;
0x10105011702050117030501170405011705050117060501170705011700060117;
0x10106011702060117030601170406011705060117060601170706011700070117;
0x10107011702070117030701170407011705070117060701170707011700000201;
0x10100020102000201030002010400020105000201060002010700020100010201;
0x10101020102010201030102010401020105010201060102010701020100020217;
0x10102021702020217030202170402021705020217060202170702021700030217;
0x10103021702030217030302170403021705030217060302170703021700040217;
0x10104021702040217030402170404021705040217060402170704021700050217;
0x10105021702050217030502170405021705050217060502170705021700060217;
0x10106021702060217030602170406021705060217060602170706021700070217;
0x10107021702070217030702170407021705070217060702170707021700000301;
0x10100030102000301030003010400030105000301060003010700030100010301;
0x10101030102010301030103010401030105010301060103010701030100020301;
0x10102030102020301030203010402030105020301060203010702030100030317;
0x10103031702030317030303170403031705030317060303170703031700040317;
0x10104031702040317030403170404031705040317060403170704031700050317;
0x10105031702050317030503170405031705050317060503170705031700060317;
0x10106031702060317030603170406031705060317060603170706031700070317;
0x10107031702070317030703170407031705070317060703170707031700000401;
0x10100040102000401030004010400040105000401060004010700040100010401;
0x10101040102010401030104010401040105010401060104010701040100020401;
0x10102040102020401030204010402040105020401060204010702040100030401;
0x10103040102030401030304010403040105030401060304010703040100040417;
0x10104041702040417030404170404041705040417060404170704041700050417;
0x10105041702050417030504170405041705050417060504170705041700060417;
0x10106041702060417030604170406041705060417060604170706041700070417;
0x10107041702070417030704170407041705070417060704170707041700000501;
0x10100050102000501030005010400050105000501060005010700050100010501;
0x10101050102010501030105010401050105010501060105010701050100020501;
0x10102050102020501030205010402050105020501060205010702050100030501;
0x10103050102030501030305010403050105030501060305010703050100040501;
0x10104050102040501030405010404050105040501060405010704050100050517;
0x10105051702050517030505170405051705050517060505170705051700060517;
0x10106051702060517030605170406051705060517060605170706051700070517;
0x10107051702070517030705170407051705070517060705170707051700000601;
0x10100060102000601030006010400060105000601060006010700060100010601;
0x10101060102010601030106010401060105010601060106010701060100020601;
0x10102060102020601030206010402060105020601060206010702060100030601;
0x10103060102030601030306010403060105030601060306010703060100040601;
0x10104060102040601030406010404060105040601060406010704060100050601;
0x10105060102050601030506010405060105050601060506010705060100060617;
0x10106061702060617030606170406061705060617060606170706061700070617;
0x10107061702070617030706170407061705070617060706170707061700000701;
0x10100070102000701030007010400070105000701060007010700070100010701;
0x10101070102010701030107010401070105010701060107010701070100020701;
0x10102070102020701030207010402070105020701060207010702070100030701;
0x10103070102030701030307010403070105030701060307010703070100040701;
0x10104070102040701030407010404070105040701060407010704070100050701;
0x10105070102050701030507010405070105050701060507010705070100060701;
0x10106070102060701030607010406070105060701060607010706070100070717;
0x10107071702070717030707170407071705070717060707170707071752474241;
0x10004000000000000000000000000ffff0000ffff0000ffff0000ffff0000ffff;
0x10000ffff0000ffff0000ffff0000ffff0000ffff0000ffff0000ffff0000ffff;
0x10000ffff0000ffff0000ffff0000ffff0000ffff0000ffff0000ffff0000ffff;
0x10000fffffbfea0fffbfea0fffbfea0fffbfea0fffbfea0fffbfea0fffbfea0ff;
0x1fbfea0fffbfea0fffbfea0fffbfea0fffbfea0fffbfea0fffbfea0fffbfea0ff;
0x1fbfea0fffbfea0fffbfea0fffbfea0fffbfea0fffbfea0fffbfea0fffbfea0ff;
0x1fbfea0fffbfea0fffbfea0fffbfea0fffbfea0fffbfea0fffbfea0fffbfea0ff;
0x1fbfea0fffbfea0fffbfea0fffbfea0fffbfea0fffbfea0fffbfea0fffbfea0ff;
0x1fbfea0fffbfea0fffbfea0fffbfea0fffbfea0fffbfea0fffbfea0fffbfea0ff;
0x1fbfea0fffbfea0fffbfea0fffbfea0fffbfea0fffbfea0ff0000ffff0000ffff;
0x10000ffff0000ffff0000ffff0000ffff0000ffff0000ffff0000ffff0000ffff;
0x10000ffff0000ffff0000ffff0000ffff0000ffff0000ffff0000ffff0000ffff;
0x10000ffff0000ffff0000ffff0000ffff0000ffff0000ffff0000ffff0000ffff;
0x10000ffff0000ffff0000ffff0000ffff0000ffff0000ffff0000ffff0000ffff;
0x10000ffff0000ffff0000ffff0000ffff0000ffff0000ffff0000ffff0000ffff;
0x10000ffff0000ffff0000ffff0000ffff0000ffff0000ffff0000ffff0000ffff;
0x10000ffff0000ffff0000ffff0000ffff0000ffff0000ffff0000ffff0000ffff;
0x10000ffff0000ffff0000ffff0000ffff0000ffff0000ffff0000ffff0000ffff;
0x10000ffff0000ffff0000ffff0000ffff0000ffff0000ffff0000ffff0000ffff;
0x10000ffff0000ffff0000ffff0000ffff0000ffff0000ffff0000ffff0000ffff;
0x10000ffff0000ffff0000ffff0000ffff0000ffff0000ffff0000ffff0000ffff;
0x10000ffff0000ffff0000ffff0000ffff00000000000000000000000000000000;
0x10000000000000000000000000000000000000000000000000000000000000000;
0x10000000000000000000000000000000000000000000000000000000000000000;
0x10000000000000000000000000000000000000000000000000000000000000000;
0x10000000000000000000000000000000000000000000000000000000000000000;
0x10000000000000000000000000000000000000000000000000000000000000000;
0x10000000000000000000000000000000000000000000000000000000000000000;
0x10000000000000000000000000000000000000000000000000000000000000000;
0x10000000000000000000000000000000000000000000000000000000000000000;
0x10000000000000000000000000000000000000000000000000000000000000000;
0x10000000000000000000000000000000000000000000000000000000000000000;
0x10000000000000000].
(** redeclipse/prefabs/egypt/beach_2sides_a.vox (3144 bytes) *)
Definition vox_egypt_beach_2sides_a : list Z := [
0x1564f5820960000004d41494e00000000340c000053495a450c00000000000000;
0x108000000080000000800000058595a4904080000000000000002000000000005;
0x10100000502000005030000050400000505000005060000050700000500010005;
0x10101000502010005030100050401000505010005060100050701000500020005;
0x10102000502020005030200050402000505020005060200050702000500030005;
0x10103000502030005030300050403000505030005060300050703000500040005;
0x10104000502040005030400050404000505040005060400050704000500050005;
0x10105000502050005030500050405000505050005060500050705000500060005;
0x10106000502060005030600050406000505060005060600050706000500070005;
0x10107000502070005030700050407000505070005060700050707000500000101;
0x10100010502000105030001050400010505000105060001050700010500010105;
0x10101010502010105030101050401010505010105060101050701010500020105;
0x10102010502020105030201050402010505020105060201050702010500030105;
0x10103010502030105030301050403010505030105060301050703010500040105;
0x10104010502040105030401050404010505040105060401050704010500050105;
0x10105010502050105030501050405010505050105060501050705010500060105;
0x10106010502060105030601050406010505060105060601050706010500070105;
0x10107010502070105030701050407010505070105060701050707010500000201;
0x10100020102000205030002050400020505000205060002050700020500010201;
0x10101020102010205030102050401020505010205060102050701020500020205;
0x10102020502020205030202050402020505020205060202050702020500030205;
0x10103020502030205030302050403020505030205060302050703020500040205;
0x10104020502040205030402050404020505040205060402050704020500050205;
0x10105020502050205030502050405020505050205060502050705020500060205;
0x10106020502060205030602050406020505060205060602050706020500070205;
0x10107020502070205030702050407020505070205060702050707020500000301;
0x10100030102000301030003050400030505000305060003050700030500010301;
0x10101030102010301030103050401030505010305060103050701030500020301;
0x10102030102020301030203050402030505020305060203050702030500030305;
0x10103030502030305030303050403030505030305060303050703030500040305;
0x10104030502040305030403050404030505040305060403050704030500050305;
0x10105030502050305030503050405030505050305060503050705030500060305;
0x10106030502060305030603050406030505060305060603050706030500070305;
0x10107030502070305030703050407030505070305060703050707030500000401;
0x10100040102000401030004010400040505000405060004050700040500010401;
0x10101040102010401030104010401040505010405060104050701040500020401;
0x10102040102020401030204010402040505020405060204050702040500030401;
0x10103040102030401030304010403040505030405060304050703040500040405;
0x10104040502040405030404050404040505040405060404050704040500050405;
0x10105040502050405030504050405040505050405060504050705040500060405;
0x10106040502060405030604050406040505060405060604050706040500070405;
0x10107040502070405030704050407040505070405060704050707040500000501;
0x10100050102000501030005010400050105000505060005050700050500010501;
0x10101050102010501030105010401050105010505060105050701050500020501;
0x10102050102020501030205010402050105020505060205050702050500030501;
0x10103050102030501030305010403050105030505060305050703050500040501;
0x10104050102040501030405010404050105040505060405050704050500050505;
0x10105050502050505030505050405050505050505060505050705050500060505;
0x10106050502060505030605050406050505060505060605050706050500070505;
0x10107050502070505030705050407050505070505060705050707050500000601;
0x10100060102000601030006010400060105000601060006050700060500010601;
0x10101060102010601030106010401060105010601060106050701060500020601;
0x10102060102020601030206010402060105020601060206050702060500030601;
0x10103060102030601030306010403060105030601060306050703060500040601;
0x10104060102040601030406010404060105040601060406050704060500050601;
0x10105060102050601030506010405060105050601060506050705060500060605;
0x10106060502060605030606050406060505060605060606050706060500070605;
0x10107060502070605030706050407060505070605060706050707060500000701;
0x10100070102000701030007010400070105000701060007010700070500010701;
0x10101070102010701030107010401070105010701060107010701070500020701;
0x10102070102020701030207010402070105020701060207010702070500030701;
0x10103070102030701030307010403070105030701060307010703070500040701;
0x10104070102040701030407010404070105040701060407010704070500050701;
0x10105070102050701030507010405070105050701060507010705070500060701;
0x10106070102060701030607010406070105060701060607010706070500070705;
0x10107070502070705030707050407070505070705060707050707070552474241;
0x10004000000000000000000000000ffff0000ffff0000ffff0000fffffbfea0ff;
0x1fbfea0fffbfea0fffbfea0fffbfea0fffbfea0fffbfea0fffbfea0fffbfea0ff;
0x1fbfea0fffbfea0fffbfea0fffbfea0fffbfea0fffbfea0fffbfea0fffbfea0ff;
0x1fbfea0fffbfea0fffbfea0fffbfea0fffbfea0fffbfea0fffbfea0fffbfea0ff;
0x1fbfea0fffbfea0fffbfea0fffbfea0fffbfea0fffbfea0fffbfea0fffbfea0ff;
0x1fbfea0fffbfea0fffbfea0fffbfea0fffbfea0fffbfea0fffbfea0fffbfea0ff;
0x1fbfea0fffbfea0fffbfea0fffbfea0fffbfea0fffbfea0fffbfea0fffbfea0ff;
0x1fbfea0fffbfea0fffbfea0fffbfea0fffbfea0fffbfea0fffbfea0fffbfea0ff;
0x1fbfea0fffbfea0fffbfea0fffbfea0fffbfea0fffbfea0fffbfea0fffbfea0ff;
0x1fbfea0fffbfea0fffbfea0fffbfea0fffbfea0fffbfea0fffbfea0fffbfea0ff;
0x1fbfea0fffbfea0fffbfea0fffbfea0fffbfea0fffbfea0fffbfea0fffbfea0ff;
0x1fbfea0fffbfea0fffbfea0fffbfea0fffbfea0fffbfea0fffbfea0fffbfea0ff;
0x1fbfea0ff0000ffff0000ffff0000ffff0000ffff0000ffff0000ffff0000ffff;
0x10000ffff0000ffff0000ffff0000ffff0000ffff0000ffff0000ffff0000ffff;
0x10000ffff0000ffff0000ffff0000ffff0000ffff0000ffff0000ffff0000ffff;
0x10000ffff0000ffff0000ffff0000ffff0000ffff0000ffff0000ffff0000ffff;
0x10000ffff0000ffff0000ffff0000ffff0000ffff0000ffff0000ffff0000ffff;
0x10000ffff0000ffff0000ffff0000ffff0000ffff0000ffff0000ffff0000ffff;
0x10000ffff0000ffff0000ffff0000ffff0000ffff0000ffff0000ffff0000ffff;
0x10000ffff0000ffff0000ffff0000ffff0000ffff0000ffff0000ffff0000ffff;
0x10000ffff0000ffff0000ffff0000ffff0000ffff0000ffff0000ffff0000ffff;
0x10000ffff00000000000000000000000000000000000000000000000000000000;
0x10000000000000000000000000000000000000000000000000000000000000000;
0x10000000000000000000000000000000000000000000000000000000000000000;
0x10000000000000000000000000000000000000000000000000000000000000000;
0x10000000000000000000000000000000000000000000000000000000000000000;
0x10000000000000000000000000000000000000000000000000000000000000000;
0x10000000000000000000000000000000000000000000000000000000000000000;
0x10000000000000000000000000000000000000000000000000000000000000000;
0x10000000000000000000000000000000000000000000000000000000000000000;
0x10000000000000000000000000000000000000000000000000000000000000000;
0x10000000000000000000000000000000000000000000000000000000000000000;
0x10000000000000000].
(** redeclipse/prefabs/egypt/beach_2sides_b.vox (3144 bytes) *)
Definition vox_egypt_beach_2sides_b : list Z := [
0x1564f5820960000004d41494e00000000340c000053495a450c00000000000000;
0x108000000080000000800000058595a4904080000000000000002000000000001;
0x10100000102000001030000010400000105000001060000010700000100010001;
0x10101000102010001030100010401000105010001060100010701000100020001;
0x10102000102020001030200010402000105020001060200010702000100030001;
0x10103000102030001030300010403000105030001060300010703000100040001;
0x10104000102040001030400010404000105040001060400010704000100050001;
0x10105000102050001030500010405000105050001060500010705000100060001;
0x10106000102060001030600010406000105060001060600010706000100070001;
0x10107000102070001030700010407000105070001060700010707000100000101;
0x10100010102000101030001010400010105000101060001010700010100010101;
0x10101010102010101030101010401010105010101060101010701010100020101;
0x10102010102020101030201010402010105020101060201010702010100030101;
0x10103010102030101030301010403010105030101060301010703010100040101;
0x10104010102040101030401010404010105040101060401010704010100050101;
0x10105010102050101030501010405010105050101060501010705010100060101;
0x10106010102060101030601010406010105060101060601010706010100070101;
0x10107010102070101030701010407010105070101060701010707010100000201;
0x10100020102000201030002010400020105000201060002010700020100010201;
0x10101020102010201030102010401020105010201060102010701020100020201;
0x10102020102020201030202010402020105020201060202010702020100030201;
0x10103020102030201030302010403020105030201060302010703020100040201;
0x10104020102040201030402010404020105040201060402010704020100050201;
0x10105020102050201030502010405020105050201060502010705020100060201;
0x10106020102060201030602010406020105060201060602010706020100070201;
0x10107020102070201030702010407020105070201060702010707020100000301;
0x10100030102000301030003010400030105000301060003010700030100010301;
0x10101030102010301030103010401030105010301060103010701030100020301;
0x10102030102020301030203010402030105020301060203010702030100030301;
0x10103030102030301030303010403030105030301060303010703030100040301;
0x10104030102040301030403010404030105040301060403010704030100050301;
0x10105030102050301030503010405030105050301060503010705030100060301;
0x10106030102060301030603010406030105060301060603010706030100070301;
0x10107030102070301030703010407030105070301060703010707030100000401;
0x10100040102000401030004010400040105000401060004010700040100010401;
0x10101040102010401030104010401040105010401060104010701040100020401;
0x10102040102020401030204010402040105020401060204010702040100030401;
0x10103040102030401030304010403040105030401060304010703040100040401;
0x10104040102040401030404010404040105040401060404010704040100050401;
0x10105040102050401030504010405040105050401060504010705040100060401;
0x10106040102060401030604010406040105060401060604010706040100070401;
0x10107040102070401030704010407040105070401060704010707040100000501;
0x10100050102000501030005010400050105000501060005010700050100010501;
0x10101050102010501030105010401050105010501060105010701050100020501;
0x1010205010202050103020501040205010502050106020501070205010003054e;
0x10103054e0203054e0303054e0403054e0503054e0603054e0703054e0004054e;
0x10104054e0204054e0304054e0404054e0504054e0604054e0704054e00050501;
0x10105050102050501030505010405050105050501060505010705050100060501;
0x10106050102060501030605010406050105060501060605010706050100070501;
0x10107050102070501030705010407050105070501060705010707050100000601;
0x10100060102000601030006010400060105000601060006010700060100010601;
0x1010106010201060103010601040106010501060106010601070106010002064e;
0x10102064e0202064e0302064e0402064e0502064e0602064e0702064e0003064e;
0x10103064e0203064e0303064e0403064e0503064e0603064e0703064e0004064e;
0x10104064e0204064e0304064e0404064e0504064e0604064e0704064e0005064e;
0x10105064e0205064e0305064e0405064e0505064e0605064e0705064e00060601;
0x10106060102060601030606010406060105060601060606010706060100070601;
0x10107060102070601030706010407060105070601060706010707060100000701;
0x1010007010200070103000701040007010500070106000701070007010001074e;
0x10101074e0201074e0301074e0401074e0501074e0601074e0701074e0002074e;
0x10102074e0202074e0302074e0402074e0502074e0602074e0702074e0003074e;
0x10103074e0203074e0303074e0403074e0503074e0603074e0703074e0004074e;
0x10104074e0204074e0304074e0404074e0504074e0604074e0704074e0005074e;
0x10105074e0205074e0305074e0405074e0505074e0605074e0705074e0006074e;
0x10106074e0206074e0306074e0406074e0506074e0606074e0706074e00070701;
0x10107070102070701030707010407070105070701060707010707070152474241;
0x1000400000000000000000000fbfea0fffbfea0fffbfea0fffbfea0fffbfea0ff;
0x1fbfea0fffbfea0fffbfea0fffbfea0fffbfea0fffbfea0fffbfea0fffbfea0ff;
0x1fbfea0fffbfea0fffbfea0fffbfea0fffbfea0fffbfea0fffbfea0fffbfea0ff;
0x1fbfea0fffbfea0fffbfea0fffbfea0fffbfea0fffbfea0fffbfea0fffbfea0ff;
0x1fbfea0fffbfea0fffbfea0fffbfea0fffbfea0fffbfea0fffbfea0fffbfea0ff;
0x1fbfea0fffbfea0fffbfea0fffbfea0fffbfea0fffbfea0fffbfea0fffbfea0ff;
0x1fbfea0fffbfea0fffbfea0fffbfea0fffbfea0fffbfea0fffbfea0fffbfea0ff;
0x1fbfea0fffbfea0fffbfea0fffbfea0fffbfea0fffbfea0fffbfea0fffbfea0ff;
0x1fbfea0fffbfea0fffbfea0fffbfea0fffbfea0fffbfea0fffbfea0fffbfea0ff;
0x1fbfea0fffbfea0fffbfea0fffbfea0fffbfea0fffbfea0fffbfea0fffbfea0ff;
0x10000ffff0000ffff0000ffff0000ffff0000ffff0000ffff0000ffff0000ffff;
0x10000ffff0000ffff0000ffff0000ffff0000ffff0000ffff0000ffff0000ffff;
0x10000ffff0000ffff0000ffff0000ffff0000ffff0000ffff0000ffff0000ffff;
0x10000ffff0000ffff0000ffff0000ffff0000ffff0000ffff0000ffff0000ffff;
0x10000ffff0000ffff0000ffff0000ffff0000ffff0000ffff0000ffff0000ffff;
0x10000ffff0000ffff0000ffff0000ffff0000ffff0000ffff0000ffff0000ffff;
0x10000ffff0000ffff0000ffff0000ffff0000ffff0000ffff0000ffff0000ffff;
0x10000ffff0000ffff0000ffff0000ffff0000ffff0000ffff0000ffff0000ffff;
0x10000ffff0000ffff0000ffff0000fffffbfea0fffbfea0fffbfea0fffbfea0ff;
0x1fbfea0fffbfea0fffbfea0fffbfea0fffbfea0fffbfea0fffbfea0fffbfea0ff;
0x1fbfea0fffbfea0fffbfea0fffbfea0fffbfea0fffbfea0fffbfea0fffbfea0ff;
0x1fbfea0fffbfea0fffbfea0fffbfea0fffbfea0fffbfea0ff0000000000000000;
0x10000000000000000000000000000000000000000000000000000000000000000;
0x10000000000000000000000000000000000000000000000000000000000000000;
0x10000000000000000000000000000000000000000000000000000000000000000;
0x10000000000000000000000000000000000000000000000000000000000000000;
0x10000000000000000000000000000000000000000000000000000000000000000;
0x10000000000000000000000000000000000000000000000000000000000000000;
0x10000000000000000000000000000000000000000000000000000000000000000;
0x10000000000000000000000000000000000000000000000000000000000000000;
0x10000000000000000000000000000000000000000000000000000000000000000;
0x10000000000000000000000000000000000000000000000000000000000000000;
0x10000000000000000].
(** redeclipse/prefabs/egypt/beach_3sides.vox (3144 bytes) *)
Definition vox_egypt_beach_3sides : list Z := [
0x1564f5820960000004d41494e00000000340c000053495a450c00000000000000;
0x108000000080000000800000058595a4904080000000000000002000000000001;
0x10100000102000001030000010400000105000001060000010700000100010001;
0x10101000102010001030100010401000105010001060100010701000100020001;
0x10102000102020001030200010402000105020001060200010702000100030001;
0x10103000102030001030300010403000105030001060300010703000100040001;
0x10104000102040001030400010404000105040001060400010704000100050001;
0x10105000102050001030500010405000105050001060500010705000100060001;
0x10106000102060001030600010406000105060001060600010706000100070001;
0x10107000102070001030700010407000105070001060700010707000100000101;
0x10100010102000101030001010400010105000101060001010700010100010101;
0x10101010102010101030101010401010105010101060101010701010100020101;
0x10102010102020101030201010402010105020101060201010702010100030101;
0x10103010102030101030301010403010105030101060301010703010100040101;
0x10104010102040101030401010404010105040101060401010704010100050101;
0x10105010102050101030501010405010105050101060501010705010100060101;
0x10106010102060101030601010406010105060101060601010706010100070101;
0x10107010102070101030701010407010105070101060701010707010100000201;
0x10100020102000201030002010400020105000201060002010700020100010201;
0x10101020102010201030102010401020105010201060102010701020100020201;
0x10102020102020201030202010402020105020201060202010702020100030201;
0x10103020102030201030302010403020105030201060302010703020100040201;
0x10104020102040201030402010404020105040201060402010704020100050201;
0x10105020102050201030502010405020105050201060502010705020100060201;
0x10106020102060201030602010406020105060201060602010706020100070201;
0x10107020102070201030702010407020105070201060702010707020100000301;
0x10100030102000301030003010400030105000301060003010700030100010301;
0x10101030102010301030103010401030105010301060103010701030100020301;
0x10102030102020301030203010402030105020301060203010702030100030301;
0x10103030102030301030303010403030105030301060303010703030100040301;
0x10104030102040301030403010404030105040301060403010704030100050301;
0x10105030102050301030503010405030105050301060503010705030100060301;
0x10106030102060301030603010406030105060301060603010706030100070301;
0x10107030102070301030703010407030105070301060703010707030100000401;
0x10100040102000401030004010400040105000401060004010700040100010401;
0x10101040102010401030104010401040105010401060104010701040100020401;
0x10102040102020401030204010402040105020401060204010702040100030401;
0x10103040102030401030304010403040105030401060304010703040100040401;
0x10104040102040401030404010404040105040401060404010704040100050401;
0x10105040102050401030504010405040105050401060504010705040100060401;
0x10106040102060401030604010406040105060401060604010706040100070401;
0x10107040102070401030704010407040105070401060704010707040100000501;
0x10100050102000501030005010400050105000501060005010700050100010501;
0x10101050102010501030105010401050105010501060105010701050100020501;
0x1010205010202050103020501040205010502050106020501070205010003055f;
0x10103055f0203055f0303055f0403055f0503050106030501070305010004055f;
0x10104055f0204055f0304055f0404055f05040501060405010704050100050501;
0x10105050102050501030505010405050105050501060505010705050100060501;
0x10106050102060501030605010406050105060501060605010706050100070501;
0x10107050102070501030705010407050105070501060705010707050100000601;
0x10100060102000601030006010400060105000601060006010700060100010601;
0x1010106010201060103010601040106010501060106010601070106010002065f;
0x10102065f0202065f0302065f0402065f0502065f06020601070206010003065f;
0x10103065f0203065f0303065f0403065f0503065f06030601070306010004065f;
0x10104065f0204065f0304065f0404065f0504065f06040601070406010005065f;
0x10105065f0205065f0305065f0405065f0505065f060506010705060100060601;
0x10106060102060601030606010406060105060601060606010706060100070601;
0x10107060102070601030706010407060105070601060706010707060100000701;
0x1010007010200070103000701040007010500070106000701070007010001075f;
0x10101075f0201075f0301075f0401075f0501075f0601075f070107010002075f;
0x10102075f0202075f0302075f0402075f0502075f0602075f070207010003075f;
0x10103075f0203075f0303075f0403075f0503075f0603075f070307010004075f;
0x10104075f0204075f0304075f0404075f0504075f0604075f070407010005075f;
0x10105075f0205075f0305075f0405075f0505075f0605075f070507010006075f;
0x10106075f0206075f0306075f0406075f0506075f0606075f0706070100070701;
0x10107070102070701030707010407070105070701060707010707070152474241;
0x1000400000000000000000000fbfea0fffbfea0fffbfea0fffbfea0fffbfea0ff;
0x1fbfea0fffbfea0fffbfea0fffbfea0fffbfea0fffbfea0fffbfea0fffbfea0ff;
0x1fbfea0fffbfea0fffbfea0fffbfea0fffbfea0fffbfea0fffbfea0fffbfea0ff;
0x1fbfea0fffbfea0fffbfea0fffbfea0fffbfea0fffbfea0fffbfea0fffbfea0ff;
0x1fbfea0fffbfea0fffbfea0fffbfea0fffbfea0fffbfea0fffbfea0fffbfea0ff;
0x1fbfea0fffbfea0fffbfea0fffbfea0fffbfea0fffbfea0fffbfea0fffbfea0ff;
0x1fbfea0fffbfea0fffbfea0fffbfea0fffbfea0fffbfea0fffbfea0fffbfea0ff;
0x1fbfea0fffbfea0fffbfea0fffbfea0fffbfea0fffbfea0fffbfea0fffbfea0ff;
0x1fbfea0fffbfea0fffbfea0fffbfea0fffbfea0fffbfea0fffbfea0fffbfea0ff;
0x1fbfea0fffbfea0fffbfea0fffbfea0fffbfea0fffbfea0fffbfea0fffbfea0ff;
0x1fbfea0fffbfea0fffbfea0fffbfea0fffbfea0fffbfea0fffbfea0fffbfea0ff;
0x1fbfea0fffbfea0fffbfea0fffbfea0fffbfea0fffbfea0fffbfea0fffbfea0ff;
0x1fbfea0ff0000ffff0000ffff0000ffff0000ffff0000ffff0000ffff0000ffff;
0x10000ffff0000ffff0000ffff0000ffff0000ffff0000ffff0000ffff0000ffff;
0x10000ffff0000ffff0000ffff0000ffff0000ffff0000ffff0000ffff0000ffff;
0x10000ffff0000ffff0000ffff0000ffff0000ffff0000ffff0000ffff0000ffff;
0x10000ffff0000ffff0000ffff0000ffff0000ffff0000ffff0000ffff0000ffff;
0x10000ffff0000ffff0000ffff0000ffff0000ffff0000ffff0000ffff0000ffff;
0x10000ffff0000ffff0000ffff0000ffff0000ffff0000ffff0000fffffbfea0ff;
0x1fbfea0fffbfea0fffbfea0fffbfea0fffbfea0fffbfea0fffbfea0fffbfea0ff;
0x1fbfea0fffbfea0fffbfea0fffbfea0fffbfea0fffbfea0fffbfea0fffbfea0ff;
0x1fbfea0ff00000000000000000000000000000000000000000000000000000000;
0x10000000000000000000000000000000000000000000000000000000000000000;
0x10000000000000000000000000000000000000000000000000000000000000000;
0x10000000000000000000000000000000000000000000000000000000000000000;
0x10000000000000000000000000000000000000000000000000000000000000000;
0x10000000000000000000000000000000000000000000000000000000000000000;
0x10000000000000000000000000000000000000000000000000000000000000000;
0x10000000000000000000000000000000000000000000000000000000000000000;
0x10000000000000000000000000000000000000000000000000000000000000000;
0x10000000000000000000000000000000000000000000000000000000000000000;
0x10000000000000000000000000000000000000000000000000000000000000000;
0x10000000000000000].
(** redeclipse/prefabs/egypt/beach_floor.vox (3144 bytes) *)
Definition vox_egypt_beach_floor : list Z := [
0x1564f5820960000004d41494e00000000340c000053495a450c00000000000000;
0x108000000080000000800000058595a4904080000000000000002000000000026;
0x10100002602000026030000260400002605000026060000260700002600010026;
0x10101002602010026030100260401002605010026060100260701002600020026;
0x10102002602020026030200260402002605020026060200260702002600030026;
0x10103002602030026030300260403002605030026060300260703002600040026;
0x10104002602040026030400260404002605040026060400260704002600050026;
0x10105002602050026030500260405002605050026060500260705002600060026;
0x10106002602060026030600260406002605060026060600260706002600070026;
0x10107002602070026030700260407002605070026060700260707002600000101;
0x10100010102000101030001010400010105000101060001010700010100010101;
0x10101010102010101030101010401010105010101060101010701010100020101;
0x10102010102020101030201010402010105020101060201010702010100030101;
0x10103010102030101030301010403010105030101060301010703010100040101;
0x10104010102040101030401010404010105040101060401010704010100050101;
0x10105010102050101030501010405010105050101060501010705010100060101;
0x10106010102060101030601010406010105060101060601010706010100070101;
0x10107010102070101030701010407010105070101060701010707010100000201;
0x10100020102000201030002010400020105000201060002010700020100010201;
0x10101020102010201030102010401020105010201060102010701020100020201;
0x10102020102020201030202010402020105020201060202010702020100030201;
0x10103020102030201030302010403020105030201060302010703020100040201;
0x10104020102040201030402010404020105040201060402010704020100050201;
0x10105020102050201030502010405020105050201060502010705020100060201;
0x10106020102060201030602010406020105060201060602010706020100070201;
0x10107020102070201030702010407020105070201060702010707020100000301;
0x10100030102000301030003010400030105000301060003010700030100010301;
0x10101030102010301030103010401030105010301060103010701030100020301;
0x10102030102020301030203010402030105020301060203010702030100030301;
0x10103030102030301030303010403030105030301060303010703030100040301;
0x10104030102040301030403010404030105040301060403010704030100050301;
0x10105030102050301030503010405030105050301060503010705030100060301;
0x10106030102060301030603010406030105060301060603010706030100070301;
0x10107030102070301030703010407030105070301060703010707030100000401;
0x10100040102000401030004010400040105000401060004010700040100010401;
0x10101040102010401030104010401040105010401060104010701040100020401;
0x10102040102020401030204010402040105020401060204010702040100030401;
0x10103040102030401030304010403040105030401060304010703040100040401;
0x10104040102040401030404010404040105040401060404010704040100050401;
0x10105040102050401030504010405040105050401060504010705040100060401;
0x10106040102060401030604010406040105060401060604010706040100070401;
0x10107040102070401030704010407040105070401060704010707040100000501;
0x10100050102000501030005010400050105000501060005010700050100010501;
0x10101050102010501030105010401050105010501060105010701050100020501;
0x10102050102020501030205010402050105020501060205010702050100030501;
0x10103050102030501030305010403050105030501060305010703050100040501;
0x10104050102040501030405010404050105040501060405010704050100050501;
0x10105050102050501030505010405050105050501060505010705050100060501;
0x10106050102060501030605010406050105060501060605010706050100070501;
0x10107050102070501030705010407050105070501060705010707050100000601;
0x10100060102000601030006010400060105000601060006010700060100010601;
0x10101060102010601030106010401060105010601060106010701060100020601;
0x10102060102020601030206010402060105020601060206010702060100030601;
0x10103060102030601030306010403060105030601060306010703060100040601;
0x10104060102040601030406010404060105040601060406010704060100050601;
0x10105060102050601030506010405060105050601060506010705060100060601;
0x10106060102060601030606010406060105060601060606010706060100070601;
0x10107060102070601030706010407060105070601060706010707060100000701;
0x10100070102000701030007010400070105000701060007010700070100010701;
0x10101070102010701030107010401070105010701060107010701070100020701;
0x10102070102020701030207010402070105020701060207010702070100030701;
0x10103070102030701030307010403070105030701060307010703070100040701;
0x10104070102040701030407010404070105040701060407010704070100050701;
0x10105070102050701030507010405070105050701060507010705070100060701;
0x10106070102060701030607010406070105060701060607010706070100070701;
0x10107070102070701030707010407070105070701060707010707070152474241;
0x10004000000000000000000000000ffff0000ffff0000ffff0000ffff0000ffff;
0x10000ffff0000ffff0000ffff0000ffff0000ffff0000ffff0000ffff0000ffff;
0x10000ffff0000ffff0000ffff0000ffff0000ffff0000ffff0000ffff0000ffff;
0x10000ffff0000ffff0000ffff0000ffff0000ffff0000ffff0000ffff0000ffff;
0x10000ffff0000ffff0000ffff0000ffff0000ffff0000ffff0000ffff0000ffff;
0x1fbfea0fffbfea0fffbfea0fffbfea0fffbfea0fffbfea0fffbfea0fffbfea0ff;
0x1fbfea0fffbfea0fffbfea0fffbfea0fffbfea0fffbfea0fffbfea0fffbfea0ff;
0x1fbfea0fffbfea0fffbfea0fffbfea0fffbfea0fffbfea0ff0000ffff0000ffff;
0x10000ffff0000ffff0000ffff0000ffff0000ffff0000ffff0000ffff0000ffff;
0x10000ffff0000ffff0000ffff0000ffff0000ffff0000ffff0000ffff0000ffff;
0x10000ffff0000ffff0000ffff0000ffff0000ffff0000ffff0000ffff0000ffff;
0x10000ffff0000ffff0000ffff0000ffff0000ffff0000ffff0000ffff0000ffff;
0x10000ffff0000ffff0000ffff0000ffff0000ffff0000ffff0000ffff0000ffff;
0x10000ffff0000ffff0000ffff0000ffff0000ffff0000ffff0000ffff0000ffff;
0x10000ffff0000ffff0000ffff0000ffff0000ffff0000ffff0000ffff0000ffff;
0x10000ffff0000ffff0000ffff0000ffff0000ffff0000ffff0000ffff0000ffff;
0x10000ffff0000ffff0000ffff0000ffff0000ffff0000ffff0000ffff0000ffff;
0x10000ffff0000ffff0000ffff0000ffff0000ffff0000ffff0000ffff0000ffff;
0x10000ffff0000ffff0000ffff0000ffff0000ffff0000ffff0000ffff0000ffff;
0x10000ffff0000ffff0000ffff0000ffff0000ffff0000ffff0000ffff0000ffff;
0x10000ffff0000ffff0000ffff0000ffff0000ffff0000ffff0000ffff0000ffff;
0x10000ffff0000ffff0000ffff0000ffff00000000000000000000000000000000;
0x10000000000000000000000000000000000000000000000000000000000000000;
0x10000000000000000000000000000000000000000000000000000000000000000;
0x10000000000000000000000000000000000000000000000000000000000000000;
0x10000000000000000000000000000000000000000000000000000000000000000;
0x10000000000000000000000000000000000000000000000000000000000000000;
0x10000000000000000000000000000000000000000000000000000000000000000;
0x10000000000000000000000000000000000000000000000000000000000000000;
0x10000000000000000000000000000000000000000000000000000000000000000;
0x10000000000000000000000000000000000000000000000000000000000000000;
0x10000000000000000000000000000000000000000000000000000000000000000;
0x10000000000000000].
(** redeclipse/prefabs/egypt/gate.vox (10728 bytes) *)
Definition vox_egypt_gate : list Z := [
0x1564f5820960000004d41494e00000000d429000053495a450c00000000000000;
0x118000000080000001500000058595a49a4250000000000006809000000000016;
0x10100001602000016030000160400001605000016060000160700001608000016;
0x1090000160a0000160b0000160c0000160d0000160e0000160f00001610000016;
0x11100001612000016130000161400001615000016160000161700001600010016;
0x10101001602010016030100160401001605010016060100160701001608010016;
0x1090100160a0100160b0100160c0100160d0100160e0100160f01001610010016;
0x11101001612010016130100161401001615010016160100161701001600020016;
0x10102001602020016030200160402001605020016060200160702001608020016;
0x1090200160a0200160b0200160c0200160d0200160e0200160f02001610020016;
0x11102001612020016130200161402001615020016160200161702001600030016;
0x10103001602030016030300160403001605030016060300160703001608030016;
0x1090300160a0300160b0300160c0300160d0300160e0300160f03001610030016;
0x11103001612030016130300161403001615030016160300161703001600040016;
0x10104001602040016030400160404001605040016060400160704001608040016;
0x1090400160a0400160b0400160c0400160d0400160e0400160f04001610040016;
0x11104001612040016130400161404001615040016160400161704001600050016;
0x10105001602050016030500160405001605050016060500160705001608050016;
0x1090500160a0500160b0500160c0500160d0500160e0500160f05001610050016;
0x11105001612050016130500161405001615050016160500161705001600060016;
0x10106001602060016030600160406001605060016060600160706001608060016;
0x1090600160a0600160b0600160c0600160d0600160e0600160f06001610060016;
0x11106001612060016130600161406001615060016160600161706001600070016;
0x10107001602070016030700160407001605070016060700160707001608070016;
0x1090700160a0700160b0700160c0700160d0700160e0700160f07001610070016;
0x11107001612070016130700161407001615070016160700161707001600000116;
0x10100011602000116030001160400011605000116060001160700011610000116;
0x11100011612000116130001161400011615000116160001161700011600010116;
0x10101011602010116030101160401011605010116060101160701011610010116;
0x11101011612010116130101161401011615010116160101161701011600020116;
0x10102011602020116030201160402011605020116060201160702011610020116;
0x11102011612020116130201161402011615020116160201161702011600030116;
0x10103011602030116030301160403011605030116060301160703011610030116;
0x11103011612030116130301161403011615030116160301161703011600040116;
0x10104011602040116030401160404011605040116060401160704011610040116;
0x11104011612040116130401161404011615040116160401161704011600050116;
0x10105011602050116030501160405011605050116060501160705011610050116;
0x11105011612050116130501161405011615050116160501161705011600060116;
0x10106011602060116030601160406011605060116060601160706011610060116;
0x11106011612060116130601161406011615060116160601161706011600070116;
0x10107011602070116030701160407011605070116060701160707011610070116;
0x11107011612070116130701161407011615070116160701161707011600000216;
0x10100021602000216030002160400021605000216060002160700021610000216;
0x11100021612000216130002161400021615000216160002161700021600010216;
0x10101021602010216030102160401021605010216060102160701021610010216;
0x11101021612010216130102161401021615010216160102161701021600020216;
0x10102021602020216030202160402021605020216060202160702021610020216;
0x11102021612020216130202161402021615020216160202161702021600030216;
0x10103021602030216030302160403021605030216060302160703021610030216;
0x11103021612030216130302161403021615030216160302161703021600040216;
0x10104021602040216030402160404021605040216060402160704021610040216;
0x11104021612040216130402161404021615040216160402161704021600050216;
0x10105021602050216030502160405021605050216060502160705021610050216;
0x11105021612050216130502161405021615050216160502161705021600060216;
0x10106021602060216030602160406021605060216060602160706021610060216;
0x11106021612060216130602161406021615060216160602161706021600070216;
0x10107021602070216030702160407021605070216060702160707021610070216;
0x11107021612070216130702161407021615070216160702161707021600000316;
0x10100031602000316030003160400031605000316060003160700031610000316;
0x11100031612000316130003161400031615000316160003161700031600010316;
0x10101031602010316030103160401031605010316060103160701031610010316;
0x11101031612010316130103161401031615010316160103161701031600020316;
0x10102031602020316030203160402031605020316060203160702031610020316;
0x11102031612020316130203161402031615020316160203161702031600030316;
0x10103031602030316030303160403031605030316060303160703031610030316;
0x11103031612030316130303161403031615030316160303161703031600040316;
0x10104031602040316030403160404031605040316060403160704031610040316;
0x11104031612040316130403161404031615040316160403161704031600050316;
0x10105031602050316030503160405031605050316060503160705031610050316;
0x11105031612050316130503161405031615050316160503161705031600060316;
0x10106031602060316030603160406031605060316060603160706031610060316;
0x11106031612060316130603161406031615060316160603161706031600070316;
0x10107031602070316030703160407031605070316060703160707031610070316;
0x11107031612070316130703161407031615070316160703161707031600000416;
0x10100041602000416030004160400041605000416060004160700041610000416;
0x11100041612000416130004161400041615000416160004161700041600010416;
0x10101041602010416030104160401041605010416060104160701041610010416;
0x11101041612010416130104161401041615010416160104161701041600020416;
0x10102041602020416030204160402041605020416060204160702041610020416;
0x11102041612020416130204161402041615020416160204161702041600030416;
0x10103041602030416030304160403041605030416060304160703041610030416;
0x11103041612030416130304161403041615030416160304161703041600040416;
0x10104041602040416030404160404041605040416060404160704041610040416;
0x11104041612040416130404161404041615040416160404161704041600050416;
0x10105041602050416030504160405041605050416060504160705041610050416;
0x11105041612050416130504161405041615050416160504161705041600060416;
0x10106041602060416030604160406041605060416060604160706041610060416;
0x11106041612060416130604161406041615060416160604161706041600070416;
0x10107041602070416030704160407041605070416060704160707041610070416;
0x11107041612070416130704161407041615070416160704161707041600000516;
0x10100051602000516030005160400051605000516060005160700051610000516;
0x11100051612000516130005161400051615000516160005161700051600010516;
0x10101051602010516030105160401051605010516060105160701051610010516;
0x11101051612010516130105161401051615010516160105161701051600020516;
0x10102051602020516030205160402051605020516060205160702051610020516;
0x11102051612020516130205161402051615020516160205161702051600030516;
0x10103051602030516030305160403051605030516060305160703051610030516;
0x11103051612030516130305161403051615030516160305161703051600040516;
0x10104051602040516030405160404051605040516060405160704051610040516;
0x11104051612040516130405161404051615040516160405161704051600050516;
0x10105051602050516030505160405051605050516060505160705051610050516;
0x11105051612050516130505161405051615050516160505161705051600060516;
0x10106051602060516030605160406051605060516060605160706051610060516;
0x11106051612060516130605161406051615060516160605161706051600070516;
0x10107051602070516030705160407051605070516060705160707051610070516;
0x11107051612070516130705161407051615070516160705161707051600000616;
0x10100061602000616030006160400061605000616060006160700061610000616;
0x11100061612000616130006161400061615000616160006161700061600010616;
0x10101061602010616030106160401061605010616060106160701061610010616;
0x11101061612010616130106161401061615010616160106161701061600020616;
0x10102061602020616030206160402061605020616060206160702061610020616;
0x11102061612020616130206161402061615020616160206161702061600030616;
0x10103061602030616030306160403061605030616060306160703061610030616;
0x11103061612030616130306161403061615030616160306161703061600040616;
0x10104061602040616030406160404061605040616060406160704061610040616;
0x11104061612040616130406161404061615040616160406161704061600050616;
0x10105061602050616030506160405061605050616060506160705061610050616;
0x11105061612050616130506161405061615050616160506161705061600060616;
0x10106061602060616030606160406061605060616060606160706061610060616;
0x11106061612060616130606161406061615060616160606161706061600070616;
0x10107061602070616030706160407061605070616060706160707061610070616;
0x11107061612070616130706161407061615070616160706161707061600000701;
0x10100070102000701030007010400070105000701060007010700070110000701;
0x11100070112000701130007011400070115000701160007011700070100010701;
0x10101070102010701030107010401070105010701060107010701070110010701;
0x11101070112010701130107011401070115010701160107011701070100020701;
0x10102070102020701030207010402070105020701060207010702070110020701;
0x11102070112020701130207011402070115020701160207011702070100030701;
0x10103070102030701030307010403070105030701060307010703070110030701;
0x11103070112030701130307011403070115030701160307011703070100040701;
0x10104070102040701030407010404070105040701060407010704070110040701;
0x11104070112040701130407011404070115040701160407011704070100050701;
0x10105070102050701030507010405070105050701060507010705070110050701;
0x11105070112050701130507011405070115050701160507011705070100060701;
0x10106070102060701030607010406070105060701060607010706070110060701;
0x11106070112060701130607011406070115060701160607011706070100070701;
0x10107070102070701030707010407070105070701060707010707070110070701;
0x11107070112070701130707011407070115070701160707011707070101010816;
0x10201081603010816040108160501081606010816110108161201081613010816;
0x11401081615010816160108160102081602020816030208160402081605020816;
0x10602081611020816120208161302081614020816150208161602081601030816;
0x10203081603030816040308160503081606030816110308161203081613030816;
0x11403081615030816160308160104081602040816030408160404081605040816;
0x10604081611040816120408161304081614040816150408161604081601050816;
0x10205081603050816040508160505081606050816110508161205081613050816;
0x11405081615050816160508160106081602060816030608160406081605060816;
0x10606081611060816120608161306081614060816150608161606081601010916;
0x10201091603010916040109160501091606010916110109161201091613010916;
0x11401091615010916160109160102091602020916030209160402091605020916;
0x10602091611020916120209161302091614020916150209161602091601030916;
0x10203091603030916040309160503091606030916110309161203091613030916;
0x11403091615030916160309160104091602040916030409160404091605040916;
0x10604091611040916120409161304091614040916150409161604091601050916;
0x10205091603050916040509160505091606050916110509161205091613050916;
0x11405091615050916160509160106091602060916030609160406091605060916;
0x10606091611060916120609161306091614060916150609161606091601010a16;
0x102010a1603010a1604010a1605010a1606010a1611010a1612010a1613010a16;
0x114010a1615010a1616010a1601020a1602020a1603020a1604020a1605020a16;
0x106020a1611020a1612020a1613020a1614020a1615020a1616020a1601030a16;
0x102030a1603030a1604030a1605030a1606030a1611030a1612030a1613030a16;
0x114030a1615030a1616030a1601040a1602040a1603040a1604040a1605040a16;
0x106040a1611040a1612040a1613040a1614040a1615040a1616040a1601050a16;
0x102050a1603050a1604050a1605050a1606050a1611050a1612050a1613050a16;
0x114050a1615050a1616050a1601060a1602060a1603060a1604060a1605060a16;
0x106060a1611060a1612060a1613060a1614060a1615060a1616060a1601010b16;
0x102010b1603010b1604010b1605010b1606010b1611010b1612010b1613010b16;
0x114010b1615010b1616010b1601020b1602020b1603020b1604020b1605020b16;
0x106020b1611020b1612020b1613020b1614020b1615020b1616020b1601030b16;
0x102030b1603030b1604030b1605030b1606030b1611030b1612030b1613030b16;
0x114030b1615030b1616030b1601040b1602040b1603040b1604040b1605040b16;
0x106040b1611040b1612040b1613040b1614040b1615040b1616040b1601050b16;
0x102050b1603050b1604050b1605050b1606050b1611050b1612050b1613050b16;
0x114050b1615050b1616050b1601060b1602060b1603060b1604060b1605060b16;
0x106060b1611060b1612060b1613060b1614060b1615060b1616060b1601010c16;
0x102010c1603010c1604010c1605010c1606010c1611010c1612010c1613010c16;
0x114010c1615010c1616010c1601020c1602020c1603020c1604020c1605020c16;
0x106020c1611020c1612020c1613020c1614020c1615020c1616020c1601030c16;
0x102030c1603030c1604030c1605030c1606030c1611030c1612030c1613030c16;
0x114030c1615030c1616030c1601040c1602040c1603040c1604040c1605040c16;
0x106040c1611040c1612040c1613040c1614040c1615040c1616040c1601050c16;
0x102050c1603050c1604050c1605050c1606050c1611050c1612050c1613050c16;
0x114050c1615050c1616050c1601060c1602060c1603060c1604060c1605060c16;
0x106060c1611060c1612060c1613060c1614060c1615060c1616060c1601010d16;
0x102010d1603010d1604010d1605010d1606010d1611010d1612010d1613010d16;
0x114010d1615010d1616010d1601020d1602020d1603020d1604020d1605020d16;
0x106020d1611020d1612020d1613020d1614020d1615020d1616020d1601030d16;
0x102030d1603030d1604030d1605030d1606030d1611030d1612030d1613030d16;
0x114030d1615030d1616030d1601040d1602040d1603040d1604040d1605040d16;
0x106040d1611040d1612040d1613040d1614040d1615040d1616040d1601050d16;
0x102050d1603050d1604050d1605050d1606050d1611050d1612050d1613050d16;
0x114050d1615050d1616050d1601060d1602060d1603060d1604060d1605060d16;
0x106060d1611060d1612060d1613060d1614060d1615060d1616060d1601010e16;
0x102010e1603010e1604010e1605010e1606010e1611010e1612010e1613010e16;
0x114010e1615010e1616010e1601020e1602020e1603020e1604020e1605020e16;
0x106020e1611020e1612020e1613020e1614020e1615020e1616020e1601030e16;
0x102030e1603030e1604030e1605030e1606030e1611030e1612030e1613030e16;
0x114030e1615030e1616030e1601040e1602040e1603040e1604040e1605040e16;
0x106040e1611040e1612040e1613040e1614040e1615040e1616040e1601050e16;
0x102050e1603050e1604050e1605050e1606050e1611050e1612050e1613050e16;
0x114050e1615050e1616050e1601060e1602060e1603060e1604060e1605060e16;
0x106060e1611060e1612060e1613060e1614060e1615060e1616060e1601010f16;
0x102010f1603010f1604010f1605010f1606010f1611010f1612010f1613010f16;
0x114010f1615010f1616010f1601020f1602020f1603020f1604020f1605020f16;
0x106020f1611020f1612020f1613020f1614020f1615020f1616020f1601030f16;
0x102030f1603030f1604030f1605030f1606030f1611030f1612030f1613030f16;
0x114030f1615030f1616030f1601040f1602040f1603040f1604040f1605040f16;
0x106040f1611040f1612040f1613040f1614040f1615040f1616040f1601050f16;
0x102050f1603050f1604050f1605050f1606050f1611050f1612050f1613050f16;
0x114050f1615050f1616050f1601060f1602060f1603060f1604060f1605060f16;
0x106060f1611060f1612060f1613060f1614060f1615060f1616060f160600100b;
0x10700100b0800100b0900100b0a00100b0b00100b0c00100b0d00100b0e00100b;
0x10f00100b1000100b1100100b0101101602011016030110160401101605011016;
0x10601100b0701100b0801100b0901100b0a01100b0b01100b0c01100b0d01100b;
0x10e01100b0f01100b1001100b1101100b12011016130110161401101615011016;
0x11601101601021016020210160302101604021016050210160602101607021016;
0x108021016090210160a0210160b0210160c0210160d0210160e0210160f021016;
0x11002101611021016120210161302101614021016150210161602101601031016;
0x10203101603031016040310160503101606031016070310160803101609031016;
0x10a0310160b0310160c0310160d0310160e0310160f0310161003101611031016;
0x11203101613031016140310161503101616031016010410160204101603041016;
0x10404101605041016060410160704101608041016090410160a0410160b041016;
0x10c0410160d0410160e0410160f04101610041016110410161204101613041016;
0x11404101615041016160410160105101602051016030510160405101605051016;
0x1060510160705101608051016090510160a0510160b0510160c0510160d051016;
0x10e0510160f051016100510161105101612051016130510161405101615051016;
0x11605101601061016020610160306101604061016050610160606100b0706100b;
0x10806100b0906100b0a06100b0b06100b0c06100b0d06100b0e06100b0f06100b;
0x11006100b1106100b12061016130610161406101615061016160610160607100b;
0x10707100b0807100b0907100b0a07100b0b07100b0c07100b0d07100b0e07100b;
0x10f07100b1007100b1107100b0101111602011116030111160401111605011116;
0x1060111160701111608011116090111160a0111160b0111160c0111160d011116;
0x10e0111160f011116100111161101111612011116130111161401111615011116;
0x11601111601021116020211160302111604021116050211160602111607021116;
0x108021116090211160a0211160b0211160c0211160d0211160e0211160f021116;
0x11002111611021116120211161302111614021116150211161602111601031116;
0x10203111603031116040311160503111606031116070311160803111609031116;
0x10a0311160b0311160c0311160d0311160e0311160f0311161003111611031116;
0x11203111613031116140311161503111616031116010411160204111603041116;
0x10404111605041116060411160704111608041116090411160a0411160b041116;
0x10c0411160d0411160e0411160f04111610041116110411161204111613041116;
0x11404111615041116160411160105111602051116030511160405111605051116;
0x1060511160705111608051116090511160a0511160b0511160c0511160d051116;
0x10e0511160f051116100511161105111612051116130511161405111615051116;
0x11605111601061116020611160306111604061116050611160606111607061116;
0x108061116090611160a0611160b0611160c0611160d0611160e0611160f061116;
0x11006111611061116120611161306111614061116150611161606111601011201;
0x10201120103011201040112010501120406011204070112010801120109011204;
0x10a0112040b0112010c0112010d0112040e0112040f0112011001120111011204;
0x11201120413011201140112011501120116011201010212010202120103021204;
0x10402120405021204060212040702120408021204090212040a0212040b021204;
0x10c0212040d0212040e0212040f02120410021204110212041202120413021204;
0x11402120415021201160212010103120402031204030312040403120405031204;
0x1060312040703120408031204090312040a0312040b0312040c0312040d031204;
0x10e0312040f031204100312041103120412031204130312041403120415031204;
0x11603120401041201020412040304120404041204050412040604120407041204;
0x108041204090412040a0412040b0412040c0412040d0412040e0412040f041204;
0x11004120411041204120412041304120414041204150412041604120101051201;
0x10205120103051204040512040505120406051204070512040805120409051204;
0x10a0512040b0512040c0512040d0512040e0512040f0512041005120411051204;
0x11205120413051204140512041505124d16051201010612010206120103061201;
0x10406120105061204060612040706120108061201090612040a0612040b061201;
0x10c0612010d0612040e0612040f06120110061201110612041206120413061201;
0x11406120115061201160612010101130102011301030113040401130405011301;
0x1060113010701130408011304090113010a0113010b0113040c0113040d011301;
0x10e0113010f011304100113041101130112011301130113041401130415011301;
0x11601130101021301020213010302130404021304050213040602130407021304;
0x108021304090213040a0213040b0213040c0213040d0213040e0213040f021304;
0x11002130411021304120213041302130414021304150213011602130101031301;
0x10203130403031304040313040503130406031304070313040803130409031304;
0x10a0313040b0313040c0313040d0313040e0313040f0313041003130411031304;
0x11203130413031304140313041503130416031301010413040204130403041304;
0x10404130405041304060413040704130408041304090413040a0413040b041304;
0x10c0413040d0413040e0413040f04130410041304110413041204130413041304;
0x11404130415041304160413040105130102051301030513040405130405051304;
0x1060513040705130408051304090513040a0513040b0513040c0513040d051304;
0x10e0513040f05130410051304110513041205130413051304140513041505134d;
0x11605130101061301020613010306130404061304050613010606130107061304;
0x108061304090613010a0613010b0613040c0613040d0613010e0613010f061304;
0x11006130411061301120613011306130414061304150613011606130100001416;
0x10100141602001416030014160400141605001416060014160700141608001416;
0x1090014160a0014160b0014160c0014160d0014160e0014160f00141610001416;
0x11100141612001416130014161400141615001416160014161700141600011416;
0x10101141602011416030114160401141605011416060114160701141608011416;
0x1090114160a0114160b0114160c0114160d0114160e0114160f01141610011416;
0x11101141612011416130114161401141615011416160114161701141600021416;
0x10102141602021416030214160402141605021416060214160702141608021416;
0x1090214160a0214160b0214160c0214160d0214160e0214160f02141610021416;
0x11102141612021416130214161402141615021416160214161702141600031416;
0x10103141602031416030314160403141605031416060314160703141608031416;
0x1090314160a0314160b0314160c0314160d0314160e0314160f03141610031416;
0x11103141612031416130314161403141615031416160314161703141600041416;
0x10104141602041416030414160404141605041416060414160704141608041416;
0x1090414160a0414160b0414160c0414160d0414160e0414160f04141610041416;
0x11104141612041416130414161404141615041416160414161704141600051416;
0x10105141602051416030514160405141605051416060514160705141608051416;
0x1090514160a0514160b0514160c0514160d0514160e0514160f05141610051416;
0x11105141612051416130514161405141615051416160514161705141600061416;
0x10106141602061416030614160406141605061416060614160706141608061416;
0x1090614160a0614160b0614160c0614160d0614160e0614160f06141610061416;
0x11106141612061416130614161406141615061416160614161706141600071416;
0x10107141602071416030714160407141605071416060714160707141608071416;
0x1090714160a0714160b0714160c0714160d0714160e0714160f07141610071416;
0x11107141612071416130714161407141615071416160714161707141652474241;
0x1000400000000000000000000dc5f14ffdc5f14ffdc5f14ffec9630ffec9630ff;
0x1ec9630ffec9630ffec9630ffec9630ffec9630ffb47224ffb47224ffb47224ff;
0x1b47224ffdc5f14ffdc5f14ffdc5f14ffdc5f14ffdc5f14ffdc5f14ffdc5f14ff;
0x1fbfea0fffbfea0fffbfea0fffbfea0fffbfea0fffbfea0fffbfea0fffbfea0ff;
0x1fbfea0fffbfea0fffbfea0fffbfea0fffbfea0fffbfea0fffbfea0fffbfea0ff;
0x1fbfea0fffbfea0fffbfea0fffbfea0fffbfea0ffdc5f14ffdc5f14ffdc5f14ff;
0x1dc5f14ffdc5f14fffbfea0fffbfea0fffbfea0fffbfea0fffbfea0fffbfea0ff;
0x1fbfea0fffbfea0ffdc5f14ffdc5f14ffdc5f14ffec9630ffec9630ffec9630ff;
0x1ec9630ffec9630ffec9630ffdc5f14ffec9630ffec9630ffec9630ffec9630ff;
0x1ec9630ffec9630ffec9630fffbfea0fffbfea0fffbfea0fffbfea0ffd58c23ff;
0x1d58c23fffbfea0ffec9630ffec9630ffb47224ffec9630ffec9630ffb47224ff;
0x1b47224ffec9630ffec9630ffec9630ffec9630ffb47224ffb47224ffb47224ff;
0x1b47224ffdc5f14ffdc5f14ffdc5f14ffdc5f14ffec9630ffec9630ffec9630ff;
0x1ec9630ffec9630ffec9630ffec9630ffec9630ffec9630ffec9630ffec9630ff;
0x1b47224ffb47224ffb47224ffb47224ffb47224ffb47224ffb47224ffb47224ff;
0x1dc5f14ffdc5f14ffdc5f14ffdc5f14ffdc5f14ffdc5f14ffdc5f14ffdc5f14ff;
0x1dc5f14ffdc5f14ffdc5f14ffec9630ffec9630ffec9630ffec9630ffec9630ff;
0x1ec9630ffec9630ffec9630ffec9630ffec9630ffec9630ffec9630ffec9630ff;
0x1ec9630ffec9630ffec9630ffb47224ffb47224ffb47224ffb47224ffb47224ff;
0x1b47224ffb47224ffb47224ffb47224ffb47224ffb47224ffb47224ffb47224ff;
0x1dc5f14ffdc5f14ffdc5f14ffdc5f14ffdc5f14ffdc5f14ffdc5f14ffdc5f14ff;
0x1dc5f14ffdc5f14ffdc5f14ffdc5f14ffdc5f14ffdc5f14ffdc5f14ffdc5f14ff;
0x1dc5f14ffdc5f14ffdc5f14ff0000000000000000000000000000000000000000;
0x10000000000000000000000000000000000000000000000000000000000000000;
0x10000000000000000000000000000000000000000000000000000000000000000;
0x10000000000000000000000000000000000000000000000000000000000000000;
0x10000000000000000000000000000000000000000000000000000000000000000;
0x10000000000000000000000000000000000000000000000000000000000000000;
0x10000000000000000000000000000000000000000000000000000000000000000;
0x10000000000000000000000000000000000000000000000000000000000000000;
0x10000000000000000000000000000000000000000000000000000000000000000;
0x10000000000000000000000000000000000000000000000000000000000000000;
0x10000000000000000].
(** redeclipse/prefabs/egypt/house_2x2.vox (4344 bytes) *)
Definition vox_egypt_house_2x2 : list Z := [
0x1564f5820960000004d41494e00000000e410000053495a450c00000000000000;
0x110000000100000000800000058595a49b40c0000000000002c03000000000010;
0x10100001002000010030000100400001005000010060000100700001008000010;
0x1090000100a0000100b0000100c0000100d0000100e0000100f00001000010010;
0x10101001002010010030100100401001005010010060100100701001008010010;
0x1090100100a0100100b0100100c0100100d0100100e0100100f01001000020010;
0x10102001002020010030200100402001005020010060200100702001008020010;
0x1090200100a0200100b0200100c0200100d0200100e0200100f02001000030010;
0x10103001002030010030300100403001005030010060300100703001008030010;
0x1090300100a0300100b0300100c0300100d0300100e0300100f03001000040010;
0x10104001002040010030400100404001005040010060400100704001008040010;
0x1090400100a0400100b0400100c0400100d0400100e0400100f04001000050010;
0x10105001002050010030500100405001005050010060500100705001008050010;
0x1090500100a0500100b0500100c0500100d0500100e0500100f05001000060010;
0x10106001002060010030600100406001005060010060600100706001008060010;
0x1090600100a0600100b0600100c0600100d0600100e0600100f06001000070010;
0x10107001002070010030700100407001005070010060700100707001008070010;
0x1090700100a0700100b0700100c0700100d0700100e0700100f07001000080010;
0x10108001002080010030800100408001005080010060800100708001008080010;
0x1090800100a0800100b0800100c0800100d0800100e0800100f08001000090010;
0x10109001002090010030900100409001005090010060900100709001008090010;
0x1090900100a0900100b0900100c0900100d0900100e0900100f090010000a0010;
0x1010a0010020a0010030a0010040a0010050a0010060a0010070a0010080a0010;
0x1090a00100a0a00100b0a00100c0a00100d0a00100e0a00100f0a0010000b0010;
0x1010b0010020b0010030b0010040b0010050b0010060b0010070b0010080b0010;
0x1090b00100a0b00100b0b00100c0b00100d0b00100e0b00100f0b0010000c0010;
0x1010c0010020c0010030c0010040c0010050c0010060c0010070c0010080c0010;
0x1090c00100a0c00100b0c00100c0c00100d0c00100e0c00100f0c0010000d0010;
0x1010d0010020d0010030d0010040d0010050d0010060d0010070d0010080d0010;
0x1090d00100a0d00100b0d00100c0d00100d0d00100e0d00100f0d0010000e0010;
0x1010e0010020e0010030e0010040e0010050e0010060e0010070e0010080e0010;
0x1090e00100a0e00100b0e00100c0e00100d0e00100e0e00100f0e0010000f0010;
0x1010f0010020f0010030f0010040f0010050f0010060f0010070f0010080f0010;
0x1090f00010a0f00010b0f00010c0f00010d0f00010e0f00010f0f001000000110;
0x10100011002000110030001100400011005000110060001100700011008000110;
0x1090001100a0001100b0001100c0001100d0001100e0001100f00011000010110;
0x10f010110000201100f020110000301100f030110000401100f04011000050110;
0x10f050110000601100f060110000701100f070110000801100f08011000090110;
0x10f090110000a01100f0a0110000b01100f0b0110000c01100f0c0110000d0110;
0x10f0d0110000e01100f0e0110000f0110010f0110020f0110030f0110040f0110;
0x1050f0110060f0110070f0110080f0110090f01010e0f01010f0f011000000210;
0x10100021002000201030002010400020105000201060002010700021008000210;
0x1090002010a0002010b0002010c0002010d0002010e0002100f00021000010210;
0x10f010210000202010f020201000302010f030201000402010f04020100050201;
0x10f050201000602010f060201000702100f070210000802100f08021000090201;
0x10f090201000a02010f0a0201000b02010f0b0201000c02010f0c0201000d0201;
0x10f0d0201000e02100f0e0210000f0210010f0210020f0210030f0210040f0210;
0x1050f0210060f0210070f0210080f0210090f02010e0f02010f0f021000000310;
0x10100031002000301060003010700031008000310090003010d0003010e000310;
0x10f000310000103100f010310000203010f020301000603010f06030100070310;
0x10f070310000803100f080310000903010f090301000d03010f0d0301000e0310;
0x10f0e0310000f0310010f0310020f0310030f0310040f0310050f0310060f0310;
0x1070f0310080f0310090f03010e0f03010f0f0310000004100100041002000401;
0x1030004010400040105000401060004010700041008000410090004010a000401;
0x10b0004010c0004010d0004010e0004100f000410000104100f01041000020401;
0x10f020401000304010f030401000404010f040401000504010f05040100060401;
0x10f060401000704100f070410000804100f080410000904010f090401000a0401;
0x10f0a0401000b04010f0b0401000c04010f0c0401000d04010f0d0401000e0410;
0x10f0e0410000f0410010f0410020f0410030f0410040f0410050f0410060f0410;
0x1070f0410080f0410090f04010e0f04010f0f0410000005100100051002000501;
0x1060005010700051008000510090005010d0005010e0005100f00051000010510;
0x10f010510000205010f020501000605010f060501000705100f07051000080510;
0x10f080510000905010f090501000d05010f0d0501000e05100f0e0510000f0510;
0x1010f0510020f0510030f0510040f0510050f0510060f0510070f0510080f0510;
0x1090f05010e0f05010f0f05100000061001000610020006010300060104000601;
0x105000601060006010700061008000610090006010a0006010b0006010c000601;
0x10d0006010e0006100f000610000106100f010610000206010f02060100030601;
0x10f030601000406010f040601000506010f050601000606010f06060100070610;
0x10f070610000806100f080610000906010f090601000a06010f0a0601000b0601;
0x10f0b0601000c06010f0c0601000d06010f0d0601000e06100f0e0610000f0610;
0x1010f0610020f0610030f0610040f0610050f0610060f0610070f0610080f0610;
0x1090f06010e0f06010f0f06100000071001000710020007100300071004000710;
0x105000710060007100700071008000710090007100a0007100b0007100c000710;
0x10d0007100e0007100f0007100001071001010710020107100301071004010710;
0x105010710060107100701071008010710090107100a0107100b0107100c010710;
0x10d0107100e0107100f0107100002071001020710020207100302071004020710;
0x105020710060207100702071008020710090207100a0207100b0207100c020710;
0x10d0207100e0207100f0207100003071001030710020307100303071004030710;
0x105030710060307100703071008030710090307100a0307100b0307100c030710;
0x10d0307100e0307100f0307100004071001040710020407100304071004040710;
0x105040710060407100704071008040710090407100a0407100b0407100c040710;
0x10d0407100e0407100f0407100005071001050710020507100305071004050710;
0x105050710060507100705071008050710090507100a0507100b0507100c050710;
0x10d0507100e0507100f0507100006071001060710020607100306071004060710;
0x105060710060607100706071008060710090607100a0607100b0607100c060710;
0x10d0607100e0607100f0607100007071001070710020707100307071004070710;
0x105070710060707100707071008070710090707100a0707100b0707100c070710;
0x10d0707100e0707100f0707100008071001080710020807100308071004080710;
0x105080710060807100708071008080710090807100a0807100b0807100c080710;
0x10d0807100e0807100f0807100009071001090710020907100309071004090710;
0x105090710060907100709071008090710090907100a0907100b0907100c090710;
0x10d0907100e0907100f090710000a0710010a0710020a0710030a0710040a0710;
0x1050a0710060a0710070a0710080a0710090a07100a0a07100b0a07100c0a0710;
0x10d0a07100e0a07100f0a0710000b0710010b0710020b0710030b0710040b0710;
0x1050b0710060b0710070b0710080b0710090b07100a0b07100b0b07100c0b0710;
0x10d0b07100e0b07100f0b0710000c0710010c0710020c0710030c0710040c0710;
0x1050c0710060c0710070c0710080c0710090c07100a0c07100b0c07100c0c0710;
0x10d0c07100e0c07100f0c0710000d0710010d0710020d0710030d0710040d0710;
0x1050d0710060d0710070d0710080d0710090d07100a0d07100b0d07100c0d0710;
0x10d0d07100e0d07100f0d0710000e0710010e0710020e0710030e0710040e0710;
0x1050e0710060e0710070e0710080e0710090e07100a0e07100b0e07100c0e0710;
0x10d0e07100e0e07100f0e0710000f0710010f0710020f0710030f0710040f0710;
0x1050f0710060f0710070f0710080f0710090f07010a0f07010b0f07010c0f0701;
0x10d0f07010e0f07010f0f071052474241000400000000000000000000ba803cff;
0x1ba803cffba803cffba803cffba803cffba803cffba803cffba803cffba803cff;
0x1ba803cffba803cffba803cffba803cffba803cffba803cfffbfea0fffbfea0ff;
0x1fbfea0fffbfea0fffbfea0fffbfea0fffbfea0fffbfea0fffbfea0fffbfea0ff;
0x1fbfea0fffbfea0fffbfea0fffbfea0fffbfea0fffbfea0fffbfea0fffbfea0ff;
0x1fbfea0fffbfea0fffbfea0fffbfea0fffbfea0fffbfea0fffbfea0fffbfea0ff;
0x1fbfea0fffbfea0fffbfea0fffbfea0fffbfea0fffbfea0fffbfea0fffbfea0ff;
0x1fbfea0fffbfea0fffbfea0fffbfea0fffbfea0fffbfea0fffbfea0fffbfea0ff;
0x1fbfea0fffbfea0fffbfea0fffbfea0fffbfea0fffbfea0fffbfea0fffbfea0ff;
0x1fbfea0fffbfea0fffbfea0fffbfea0fffbfea0fffbfea0fffbfea0fffbfea0ff;
0x1fbfea0fffbfea0fffbfea0fffbfea0fffbfea0fffbfea0fffbfea0fffbfea0ff;
0x1fbfea0fffbfea0fffbfea0fffbfea0fffbfea0fffbfea0fffbfea0fffbfea0ff;
0x1fbfea0fffbfea0fffbfea0fffbfea0fffbfea0fffbfea0fffbfea0fffbfea0ff;
0x1fbfea0fffbfea0fffbfea0fffbfea0fffbfea0fffbfea0fffbfea0fffbfea0ff;
0x1fbfea0fffbfea0fffbfea0fffbfea0ffba803cffba803cffba803cffba803cff;
0x1ba803cffba803cffba803cffba803cffba803cffba803cffba803cffba803cff;
0x1ba803cffba803cffba803cffba803cffba803cffba803cffba803cffba803cff;
0x1ba803cffba803cffba803cffba803cffba803cffba803cffba803cffba803cff;
0x1ba803cffba803cffba803cffba803cffba803cffba803cffba803cffba803cff;
0x1ba803cffba803cffba803cffba803cffba803cffba803cffba803cffba803cff;
0x1ba803cffba803cffba803cffba803cffba803cffba803cffba803cffba803cff;
0x1ba803cffba803cffba803cffba803cff00000000000000000000000000000000;
0x10000000000000000000000000000000000000000000000000000000000000000;
0x10000000000000000000000000000000000000000000000000000000000000000;
0x10000000000000000000000000000000000000000000000000000000000000000;
0x10000000000000000000000000000000000000000000000000000000000000000;
0x10000000000000000000000000000000000000000000000000000000000000000;
0x10000000000000000000000000000000000000000000000000000000000000000;
0x10000000000000000000000000000000000000000000000000000000000000000;
0x10000000000000000000000000000000000000000000000000000000000000000;
0x10000000000000000000000000000000000000000000000000000000000000000;
0x10000000000000000000000000000000000000000000000000000000000000000;
0x1000000000000000000000000000000000000000000000000].
(** redeclipse/prefabs/egypt/house_2x2x3.vox (7272 bytes) *)
Definition vox_egypt_house_2x2x3 : list Z := [
0x1564f5820960000004d41494e00000000541c000053495a450c00000000000000;
0x110000000100000001000000058595a492418000000000000080600000000003a;
0x10100003a0200003a0300003a0400003a0500003a0600003a0700003a0800003a;
0x10900003a0a00003a0b00003a0c00003a0d00003a0e00003a0f00003a0001003a;
0x10101003a0201003a0301003a0401003a0501003a0601003a0701003a0801003a;
0x10901003a0a01003a0b01003a0c01003a0d01003a0e01003a0f01003a0002003a;
0x10102003a0202003a0302003a0402003a0502003a0602003a0702003a0802003a;
0x10902003a0a02003a0b02003a0c02003a0d02003a0e02003a0f02003a0003003a;
0x10103003a0203003a0303003a0403003a0503003a0603003a0703003a0803003a;
0x10903003a0a03003a0b03003a0c03003a0d03003a0e03003a0f03003a0004003a;
0x10104003a0204003a0304003a0404003a0504003a0604003a0704003a0804003a;
0x10904003a0a04003a0b04003a0c04003a0d04003a0e04003a0f04003a0005003a;
0x10105003a0205003a0305003a0405003a0505003a0605003a0705003a0805003a;
0x10905003a0a05003a0b05003a0c05003a0d05003a0e05003a0f05003a0006003a;
0x10106003a0206003a0306003a0406003a0506003a0606003a0706003a0806003a;
0x10906003a0a06003a0b06003a0c06003a0d06003a0e06003a0f06003a0007003a;
0x10107003a0207003a0307003a0407003a0507003a0607003a0707003a0807003a;
0x10907003a0a07003a0b07003a0c07003a0d07003a0e07003a0f07003a0008003a;
0x10108003a0208003a0308003a0408003a0508003a0608003a0708003a0808003a;
0x10908003a0a08003a0b08003a0c08003a0d08003a0e08003a0f08003a0009003a;
0x10109003a0209003a0309003a0409003a0509003a0609003a0709003a0809003a;
0x10909003a0a09003a0b09003a0c09003a0d09003a0e09003a0f09003a000a003a;
0x1010a003a020a003a030a003a040a003a050a003a060a003a070a003a080a003a;
0x1090a003a0a0a003a0b0a003a0c0a003a0d0a003a0e0a003a0f0a003a000b003a;
0x1010b003a020b003a030b003a040b003a050b003a060b003a070b003a080b003a;
0x1090b003a0a0b003a0b0b003a0c0b003a0d0b003a0e0b003a0f0b003a000c003a;
0x1010c003a020c003a030c003a040c003a050c003a060c003a070c003a080c003a;
0x1090c003a0a0c003a0b0c003a0c0c003a0d0c003a0e0c003a0f0c003a000d003a;
0x1010d003a020d003a030d003a040d003a050d003a060d003a070d003a080d003a;
0x1090d003a0a0d003a0b0d003a0c0d003a0d0d003a0e0d003a0f0d003a000e003a;
0x1010e003a020e003a030e003a040e003a050e003a060e003a070e003a080e003a;
0x1090e003a0a0e003a0b0e003a0c0e003a0d0e003a0e0e003a0f0e003a000f003a;
0x1010f003a020f003a030f003a040f003a050f003a060f003a070f003a080f003a;
0x1090f00010a0f00010b0f00010c0f00010d0f00010e0f00010f0f003a0000013a;
0x10100013a0200013a0300013a0400013a0500013a0600013a0700013a0800013a;
0x10900013a0a00013a0b00013a0c00013a0d00013a0e00013a0f00013a0001013a;
0x10101013a0201013a0301013a0401013a0f01013a0002013a0102013a0202013a;
0x10302013a0402013a0f02013a0003013a0103013a0203013a0303013a0403013a;
0x10f03013a0004013a0104013a0204013a0304013a0404013a0f04013a0005013a;
0x10105013a0205013a0305013a0405013a0f05013a0006013a0106013a0206013a;
0x10306013a0406013a0f06013a0007013a0107013a0207013a0307013a0407013a;
0x10f07013a0008013a0108013a0208013a0308013a0408013a0f08013a0009013a;
0x10f09013a000a013a0f0a013a000b013a0f0b013a000c013a0f0c013a000d013a;
0x10f0d013a000e013a0f0e013a000f013a010f013a020f013a030f013a040f013a;
0x1050f013a060f013a070f013a080f013a090f01010e0f01010f0f013a0000023a;
0x10100023a0200023a0300023a0400023a0500023a0600023a0700023a0800023a;
0x1090002010a0002010b0002010c0002010d0002010e00023a0f00023a0001023a;
0x10101023a0201023a0301023a0401023a0f01023a0002023a0102023a0202023a;
0x10302023a0402023a0f0202010003023a0103023a0203023a0303023a0403023a;
0x10f0302010004023a0104023a0204023a0304023a0404023a0f0402010005023a;
0x10105023a0205023a0305023a0405023a0f0502010006023a0106023a0206023a;
0x10306023a0406023a0f0602010007023a0107023a0207023a0307023a0407023a;
0x10f07023a0008023a0f08023a000902010f090201000a02010f0a0201000b0201;
0x10f0b0201000c02010f0c0201000d02010f0d0201000e023a0f0e023a000f023a;
0x1010f023a020f023a030f023a040f023a050f023a060f023a070f023a080f023a;
0x1090f02010e0f02010f0f023a0000033a0100033a0200033a0300033a0400033a;
0x10500033a0600033a0700033a0800033a090003010d0003010e00033a0f00033a;
0x10001033a0101033a0201033a0301033a0401033a0f01033a0002033a0102033a;
0x10202033a0302033a0402033a0f0203010003033a0103033a0203033a0303033a;
0x10403033a0004033a0104033a0204033a0304033a0404033a0005033a0105033a;
0x10205033a0305033a0405033a0006033a0106033a0206033a0306033a0406033a;
0x10f0603010007033a0f07033a0008033a0f08033a000903010f090301000d0301;
0x10f0d0301000e033a0f0e033a000f033a010f033a020f033a030f033a040f033a;
0x1050f033a060f033a070f033a080f033a090f03010e0f03010f0f033a0000043a;
0x10100043a0200043a0300043a0400043a0500043a0600043a0700043a0800043a;
0x1090004010a0004010b0004010c0004010d0004010e00043a0f00043a0001043a;
0x10101043a0201043a0301043a0401043a0f01043a0002043a0102043a0202043a;
0x10302043a0402043a0f0204010003043a0103043a0203043a0303043a0403043a;
0x10f0304010004043a0104043a0204043a0304043a0404043a0f0404010005043a;
0x10105043a0205043a0305043a0405043a0f0504010006043a0f0604010007043a;
0x10f07043a0008043a0f08043a000904010f090401000a04010f0a0401000b0401;
0x10f0b0401000c04010f0c0401000d04010f0d0401000e043a0f0e043a000f043a;
0x1010f043a020f043a030f043a040f043a050f043a060f043a070f043a080f043a;
0x1090f04010e0f04010f0f043a0000053a0100053a0200053a0300053a0400053a;
0x10500053a0600053a0700053a0800053a090005010d0005010e00053a0f00053a;
0x10001053a0101053a0201053a0301053a0401053a0f01053a0002053a0102053a;
0x10202053a0302053a0402053a0f0205010003053a0103053a0203053a0303053a;
0x10403053a0004053a0104053a0204053a0304053a0404053a0005053a0006053a;
0x10f0605010007053a0f07053a0008053a0f08053a000905010f090501000d0501;
0x10f0d0501000e053a0f0e053a000f053a010f053a020f053a030f053a040f053a;
0x1050f053a060f053a070f053a080f053a090f05010e0f05010f0f053a0000063a;
0x10100063a0200063a0300063a0400063a0500063a0600063a0700063a0800063a;
0x1090006010a0006010b0006010c0006010d0006010e00063a0f00063a0001063a;
0x10101063a0201063a0301063a0401063a0f01063a0002063a0102063a0202063a;
0x10302063a0402063a0f0206010003063a0103063a0203063a0303063a0403063a;
0x10f0306010004063a0f0406010005063a0f0506010006063a0f0606010007063a;
0x10f07063a0008063a0f08063a000906010f090601000a06010f0a0601000b0601;
0x10f0b0601000c06010f0c0601000d06010f0d0601000e063a0f0e063a000f063a;
0x1010f063a020f063a030f063a040f063a050f063a060f063a070f063a080f063a;
0x1090f06010e0f06010f0f063a0000073a0100073a0200073a0300073a0400073a;
0x10500073a0600073a0700073a0800073a0900073a0a00073a0b00073a0c00073a;
0x10d00073a0e00073a0f00073a0001073a0101073a0201073a0301073a0401073a;
0x10501073a0601073a0701073a0801073a0901073a0a01073a0b01073a0c01073a;
0x10d01073a0e01073a0f01073a0002073a0102073a0202073a0302073a0402073a;
0x10502073a0602073a0702073a0802073a0902073a0a02073a0b02073a0c02073a;
0x10d02073a0e02073a0f02073a0003073a0503073a0603073a0703073a0803073a;
0x10903073a0a03073a0b03073a0c03073a0d03073a0e03073a0f03073a0004073a;
0x10504073a0604073a0704073a0804073a0904073a0a04073a0b04073a0c04073a;
0x10d04073a0e04073a0f04073a0005073a0505073a0605073a0705073a0805073a;
0x10905073a0a05073a0b05073a0c05073a0d05073a0e05073a0f05073a0006073a;
0x10506073a0606073a0706073a0806073a0906073a0a06073a0b06073a0c06073a;
0x10d06073a0e06073a0f06073a0007073a0507073a0607073a0707073a0807073a;
0x10907073a0a07073a0b07073a0c07073a0d07073a0e07073a0f07073a0008073a;
0x10508073a0608073a0708073a0808073a0908073a0a08073a0b08073a0c08073a;
0x10d08073a0e08073a0f08073a0009073a0509073a0609073a0709073a0809073a;
0x10909073a0a09073a0b09073a0c09073a0d09073a0e09073a0f09073a000a073a;
0x1050a073a060a073a070a073a080a073a090a073a0a0a073a0b0a073a0c0a073a;
0x10d0a073a0e0a073a0f0a073a000b073a050b073a060b073a070b073a080b073a;
0x1090b073a0a0b073a0b0b073a0c0b073a0d0b073a0e0b073a0f0b073a000c073a;
0x1050c073a060c073a070c073a080c073a090c073a0a0c073a0b0c073a0c0c073a;
0x10d0c073a0e0c073a0f0c073a000d073a010d073a020d073a030d073a040d073a;
0x1050d073a060d073a070d073a080d073a090d073a0a0d073a0b0d073a0c0d073a;
0x10d0d073a0e0d073a0f0d073a000e073a010e073a020e073a030e073a040e073a;
0x1050e073a060e073a070e073a080e073a090e073a0a0e073a0b0e073a0c0e073a;
0x10d0e073a0e0e073a0f0e073a000f073a010f073a020f073a030f073a040f073a;
0x1050f073a060f073a070f073a080f073a090f07010a0f07010b0f07010c0f0701;
0x10d0f07010e0f07010f0f073a0000083a0100083a0200083a0300083a0400083a;
0x10500083a0600083a0700083a0800083a0900083a0a00083a0b00083a0c00083a;
0x10d00083a0e00083a0f00083a0001083a0f01083a0002083a0f02083a0003083a;
0x10f03083a0004083a0f04083a0005083a0f05083a0006083a0f06083a0007083a;
0x10f07083a0008083a0f08083a0009083a0f09083a000a083a0f0a083a000b083a;
0x10f0b083a000c083a0f0c083a000d083a0f0d083a000e083a0f0e083a000f083a;
0x1010f083a020f083a030f083a040f083a050f083a060f083a070f083a080f083a;
0x1090f083a0a0f083a0b0f083a0c0f083a0d0f083a0e0f083a0f0f083a0000093a;
0x10100093a0200093a0300093a0400093a0500093a0600093a0700093a0800093a;
0x10900093a0a00093a0b00093a0c00093a0d00093a0e00093a0f00093a0001093a;
0x10f01093a0002093a0f02093a0003093a0f03093a0004093a0f04093a0005093a;
0x10f05093a0006093a0f06093a0007093a0f07093a0008093a0f08093a0009093a;
0x10f09093a000a093a0f0a093a000b093a0f0b093a000c093a0f0c093a000d093a;
0x10f0d093a000e093a0f0e093a000f093a010f093a020f093a030f093a040f093a;
0x1050f093a060f093a070f093a080f093a090f093a0a0f093a0b0f093a0c0f093a;
0x10d0f093a0e0f093a0f0f093a00000a3a01000a3a02000a0103000a0104000a01;
0x105000a0106000a0107000a3a08000a3a09000a010a000a010b000a010c000a01;
0x10d000a010e000a3a0f000a3a00010a3a0f010a3a00020a010f020a0100030a01;
0x10f030a0100040a010f040a0100050a010f050a0100060a010f060a0100070a3a;
0x10f070a3a00080a3a0f080a3a00090a010f090a01000a0a010f0a0a01000b0a01;
0x10f0b0a01000c0a010f0c0a01000d0a010f0d0a01000e0a3a0f0e0a3a000f0a3a;
0x1010f0a3a020f0a01030f0a01040f0a01050f0a01060f0a01070f0a3a080f0a3a;
0x1090f0a010a0f0a010b0f0a010c0f0a010d0f0a010e0f0a3a0f0f0a3a00000b3a;
0x101000b3a02000b0106000b0107000b3a08000b3a09000b010d000b010e000b3a;
0x10f000b3a00010b3a0f010b3a00020b010f020b0100060b010f060b0100070b3a;
0x10f070b3a00080b3a0f080b3a00090b010f090b01000d0b010f0d0b01000e0b3a;
0x10f0e0b3a000f0b3a010f0b3a020f0b01060f0b01070f0b3a080f0b3a090f0b01;
0x10d0f0b010e0f0b3a0f0f0b3a00000c3a01000c3a02000c0103000c0104000c01;
0x105000c0106000c0107000c3a08000c3a09000c010a000c010b000c010c000c01;
0x10d000c010e000c3a0f000c3a00010c3a0f010c3a00020c010f020c0100030c01;
0x10f030c0100040c010f040c0100050c010f050c0100060c010f060c0100070c3a;
0x10f070c3a00080c3a0f080c3a00090c010f090c01000a0c010f0a0c01000b0c01;
0x10f0b0c01000c0c010f0c0c01000d0c010f0d0c01000e0c3a0f0e0c3a000f0c3a;
0x1010f0c3a020f0c01030f0c01040f0c01050f0c01060f0c01070f0c3a080f0c3a;
0x1090f0c010a0f0c010b0f0c010c0f0c010d0f0c010e0f0c3a0f0f0c3a00000d3a;
0x101000d3a02000d0106000d0107000d3a08000d3a09000d010d000d010e000d3a;
0x10f000d3a00010d3a0f010d3a00020d010f020d0100060d010f060d0100070d3a;
0x10f070d3a00080d3a0f080d3a00090d010f090d01000d0d010f0d0d01000e0d3a;
0x10f0e0d3a000f0d3a010f0d3a020f0d01060f0d01070f0d3a080f0d3a090f0d01;
0x10d0f0d010e0f0d3a0f0f0d3a00000e3a01000e3a02000e0103000e0104000e01;
0x105000e0106000e0107000e3a08000e3a09000e010a000e010b000e010c000e01;
0x10d000e010e000e3a0f000e3a00010e3a0f010e3a00020e010f020e0100030e01;
0x10f030e0100040e010f040e0100050e010f050e0100060e010f060e0100070e3a;
0x10f070e3a00080e3a0f080e3a00090e010f090e01000a0e010f0a0e01000b0e01;
0x10f0b0e01000c0e010f0c0e01000d0e010f0d0e01000e0e3a0f0e0e3a000f0e3a;
0x1010f0e3a020f0e01030f0e01040f0e01050f0e01060f0e01070f0e3a080f0e3a;
0x1090f0e010a0f0e010b0f0e010c0f0e010d0f0e010e0f0e3a0f0f0e3a00000f3a;
0x101000f3a02000f3a03000f3a04000f3a05000f3a06000f3a07000f3a08000f3a;
0x109000f3a0a000f3a0b000f3a0c000f3a0d000f3a0e000f3a0f000f3a00010f3a;
0x101010f3a02010f3a03010f3a04010f3a05010f3a06010f3a07010f3a08010f3a;
0x109010f3a0a010f3a0b010f3a0c010f3a0d010f3a0e010f3a0f010f3a00020f3a;
0x101020f3a02020f3a03020f3a04020f3a05020f3a06020f3a07020f3a08020f3a;
0x109020f3a0a020f3a0b020f3a0c020f3a0d020f3a0e020f3a0f020f3a00030f3a;
0x101030f3a02030f3a03030f3a04030f3a05030f3a06030f3a07030f3a08030f3a;
0x109030f3a0a030f3a0b030f3a0c030f3a0d030f3a0e030f3a0f030f3a00040f3a;
0x101040f3a02040f3a03040f3a04040f3a05040f3a06040f3a07040f3a08040f3a;
0x109040f3a0a040f3a0b040f3a0c040f3a0d040f3a0e040f3a0f040f3a00050f3a;
0x101050f3a02050f3a03050f3a04050f3a05050f3a06050f3a07050f3a08050f3a;
0x109050f3a0a050f3a0b050f3a0c050f3a0d050f3a0e050f3a0f050f3a00060f3a;
0x101060f3a02060f3a03060f3a04060f3a05060f3a06060f3a07060f3a08060f3a;
0x109060f3a0a060f3a0b060f3a0c060f3a0d060f3a0e060f3a0f060f3a00070f3a;
0x101070f3a02070f3a03070f3a04070f3a05070f3a06070f3a07070f3a08070f3a;
0x109070f3a0a070f3a0b070f3a0c070f3a0d070f3a0e070f3a0f070f3a00080f3a;
0x101080f3a02080f3a03080f3a04080f3a05080f3a06080f3a07080f3a08080f3a;
0x109080f3a0a080f3a0b080f3a0c080f3a0d080f3a0e080f3a0f080f3a00090f3a;
0x101090f3a02090f3a03090f3a04090f3a05090f3a06090f3a07090f3a08090f3a;
0x109090f3a0a090f3a0b090f3a0c090f3a0d090f3a0e090f3a0f090f3a000a0f3a;
0x1010a0f3a020a0f3a030a0f3a040a0f3a050a0f3a060a0f3a070a0f3a080a0f3a;
0x1090a0f3a0a0a0f3a0b0a0f3a0c0a0f3a0d0a0f3a0e0a0f3a0f0a0f3a000b0f3a;
0x1010b0f3a020b0f3a030b0f3a040b0f3a050b0f3a060b0f3a070b0f3a080b0f3a;
0x1090b0f3a0a0b0f3a0b0b0f3a0c0b0f3a0d0b0f3a0e0b0f3a0f0b0f3a000c0f3a;
0x1010c0f3a020c0f3a030c0f3a040c0f3a050c0f3a060c0f3a070c0f3a080c0f3a;
0x1090c0f3a0a0c0f3a0b0c0f3a0c0c0f3a0d0c0f3a0e0c0f3a0f0c0f3a000d0f3a;
0x1010d0f3a020d0f3a030d0f3a040d0f3a050d0f3a060d0f3a070d0f3a080d0f3a;
0x1090d0f3a0a0d0f3a0b0d0f3a0c0d0f3a0d0d0f3a0e0d0f3a0f0d0f3a000e0f3a;
0x1010e0f3a020e0f3a030e0f3a040e0f3a050e0f3a060e0f3a070e0f3a080e0f3a;
0x1090e0f3a0a0e0f3a0b0e0f3a0c0e0f3a0d0e0f3a0e0e0f3a0f0e0f3a000f0f3a;
0x1010f0f3a020f0f3a030f0f3a040f0f3a050f0f3a060f0f3a070f0f3a080f0f3a;
0x1090f0f3a0a0f0f3a0b0f0f3a0c0f0f3a0d0f0f3a0e0f0f3a0f0f0f3a52474241;
0x1000400000000000000000000ba803cffba803cffba803cffba803cffba803cff;
0x1ba803cffba803cffba803cffba803cffba803cffba803cffba803cffba803cff;
0x1ba803cffba803cffba803cffba803cffba803cffba803cffba803cffba803cff;
0x1ba803cffba803cffba803cffba803cffba803cffba803cffba803cffba803cff;
0x1ba803cffba803cffba803cffba803cffba803cffba803cffba803cffba803cff;
0x1ba803cffba803cffba803cffba803cffba803cffba803cffba803cffba803cff;
0x1ba803cffba803cffba803cffba803cffba803cffba803cffba803cffba803cff;
0x1ba803cffba803cffba803cffba803cfffbfea0fffbfea0fffbfea0fffbfea0ff;
0x1fbfea0fffbfea0fffbfea0fffbfea0fffbfea0fffbfea0fffbfea0fffbfea0ff;
0x1fbfea0fffbfea0fffbfea0fffbfea0fffbfea0fffbfea0fffbfea0fffbfea0ff;
0x1fbfea0fffbfea0fffbfea0fffbfea0fffbfea0fffbfea0fffbfea0fffbfea0ff;
0x1fbfea0fffbfea0fffbfea0fffbfea0fffbfea0fffbfea0fffbfea0fffbfea0ff;
0x1fbfea0fffbfea0fffbfea0fffbfea0fffbfea0fffbfea0fffbfea0fffbfea0ff;
0x1fbfea0fffbfea0fffbfea0fffbfea0fffbfea0fffbfea0fffbfea0fffbfea0ff;
0x1fbfea0fffbfea0fffbfea0fffbfea0fffbfea0fffbfea0fffbfea0fffbfea0ff;
0x1fbfea0fffbfea0fffbfea0fffbfea0fffbfea0fffbfea0fffbfea0fffbfea0ff;
0x1fbfea0fffbfea0fffbfea0fffbfea0fffbfea0fffbfea0fffbfea0fffbfea0ff;
0x1fbfea0fffbfea0fffbfea0fffbfea0fffbfea0fffbfea0fffbfea0fffbfea0ff;
0x1fbfea0fffbfea0fffbfea0fffbfea0fffbfea0fffbfea0fffbfea0fffbfea0ff;
0x1fbfea0fffbfea0fffbfea0fffbfea0fffbfea0fffbfea0fffbfea0fffbfea0ff;
0x1fbfea0fffbfea0fffbfea0fffbfea0fffbfea0fffbfea0fffbfea0fffbfea0ff;
0x1fbfea0fffbfea0fffbfea0fffbfea0fffbfea0fffbfea0fffbfea0fffbfea0ff;
0x1fbfea0fffbfea0fffbfea0fffbfea0fffbfea0fffbfea0fffbfea0fffbfea0ff;
0x1fbfea0fffbfea0fffbfea0fffbfea0fffbfea0ff000000000000000000000000;
0x10000000000000000000000000000000000000000000000000000000000000000;
0x10000000000000000000000000000000000000000000000000000000000000000;
0x10000000000000000000000000000000000000000000000000000000000000000;
0x10000000000000000000000000000000000000000000000000000000000000000;
0x10000000000000000000000000000000000000000000000000000000000000000;
0x10000000000000000000000000000000000000000000000000000000000000000;
0x10000000000000000000000000000000000000000000000000000000000000000;
0x10000000000000000000000000000000000000000000000000000000000000000;
0x10000000000000000].
(** redeclipse/prefabs/egypt/sand_square.vox (1352 bytes) *)
Definition vox_egypt_sand_square : list Z := [
0x1564f5820960000004d41494e000000003405000053495a450c00000000000000;
0x108000000080000000100000058595a4904010000000000004000000000000001;
0x10100000102000001030000010400000105000001060000010700000100010001;
0x10101000102010001030100010401000105010001060100010701000100020001;
0x10102000102020001030200010402000105020001060200010702000100030001;
0x10103000102030001030300010403000105030001060300010703000100040001;
0x10104000102040001030400010404000105040001060400010704000100050001;
0x10105000102050001030500010405000105050001060500010705000100060001;
0x10106000102060001030600010406000105060001060600010706000100070001;
0x10107000102070001030700010407000105070001060700010707000152474241;
0x1000400000000000000000000fbfea0fffbfea0fffbfea0fffbfea0fffbfea0ff;
0x1fbfea0fffbfea0fffbfea0fffbfea0fffbfea0fffbfea0fffbfea0fffbfea0ff;
0x1fbfea0fffbfea0fffbfea0fffbfea0fffbfea0fffbfea0fffbfea0fffbfea0ff;
0x1fbfea0fffbfea0fffbfea0fffbfea0fffbfea0fffbfea0fffbfea0fffbfea0ff;
0x1fbfea0fffbfea0fffbfea0fffbfea0fffbfea0fffbfea0fffbfea0fffbfea0ff;
0x1fbfea0fffbfea0fffbfea0fffbfea0fffbfea0fffbfea0fffbfea0fffbfea0ff;
0x1fbfea0fffbfea0fffbfea0fffbfea0fffbfea0fffbfea0fffbfea0fffbfea0ff;
0x1fbfea0fffbfea0fffbfea0fffbfea0fffbfea0fffbfea0fffbfea0fffbfea0ff;
0x1fbfea0fffbfea0fffbfea0ff0000000000000000000000000000000000000000;
0x10000000000000000000000000000000000000000000000000000000000000000;
0x10000000000000000000000000000000000000000000000000000000000000000;
0x10000000000000000000000000000000000000000000000000000000000000000;
0x10000000000000000000000000000000000000000000000000000000000000000;
0x10000000000000000000000000000000000000000000000000000000000000000;
0x10000000000000000000000000000000000000000000000000000000000000000;
0x10000000000000000000000000000000000000000000000000000000000000000;
0x10000000000000000000000000000000000000000000000000000000000000000;
0x10000000000000000000000000000000000000000000000000000000000000000;
0x10000000000000000000000000000000000000000000000000000000000000000;
0x10000000000000000000000000000000000000000000000000000000000000000;
0x10000000000000000000000000000000000000000000000000000000000000000;
0x10000000000000000000000000000000000000000000000000000000000000000;
0x10000000000000000000000000000000000000000000000000000000000000000;
0x10000000000000000000000000000000000000000000000000000000000000000;
0x10000000000000000000000000000000000000000000000000000000000000000;
0x10000000000000000000000000000000000000000000000000000000000000000;
0x10000000000000000000000000000000000000000000000000000000000000000;
0x10000000000000000000000000000000000000000000000000000000000000000;
0x10000000000000000000000000000000000000000000000000000000000000000;
0x10000000000000000000000000000000000000000000000000000000000000000;
0x10000000000000000000000000000000000000000000000000000000000000000;
0x10000000000000000000000000000000000000000000000000000000000000000;
0x10000000000000000].
(** redeclipse/prefabs/egypt/sand_square2x.vox (2120 bytes) *)
Definition vox_egypt_sand_square2x : list Z := [
0x1564f5820960000004d41494e000000003408000053495a450c00000000000000;
0x110000000100000000100000058595a4904040000000000000001000000000001;
0x10100000102000001030000010400000105000001060000010700000108000001;
0x1090000010a0000010b0000010c0000010d0000010e0000010f00000100010001;
0x10101000102010001030100010401000105010001060100010701000108010001;
0x1090100010a0100010b0100010c0100010d0100010e0100010f01000100020001;
0x10102000102020001030200010402000105020001060200010702000108020001;
0x1090200010a0200010b0200010c0200010d0200010e0200010f02000100030001;
0x10103000102030001030300010403000105030001060300010703000108030001;
0x1090300010a0300010b0300010c0300010d0300010e0300010f03000100040001;
0x10104000102040001030400010404000105040001060400010704000108040001;
0x1090400010a0400010b0400010c0400010d0400010e0400010f04000100050001;
0x10105000102050001030500010405000105050001060500010705000108050001;
0x1090500010a0500010b0500010c0500010d0500010e0500010f05000100060001;
0x10106000102060001030600010406000105060001060600010706000108060001;
0x1090600010a0600010b0600010c0600010d0600010e0600010f06000100070001;
0x10107000102070001030700010407000105070001060700010707000108070001;
0x1090700010a0700010b0700010c0700010d0700010e0700010f07000100080001;
0x10108000102080001030800010408000105080001060800010708000108080001;
0x1090800010a0800010b0800010c0800010d0800010e0800010f08000100090001;
0x10109000102090001030900010409000105090001060900010709000108090001;
0x1090900010a0900010b0900010c0900010d0900010e0900010f090001000a0001;
0x1010a0001020a0001030a0001040a0001050a0001060a0001070a0001080a0001;
0x1090a00010a0a00010b0a00010c0a00010d0a00010e0a00010f0a0001000b0001;
0x1010b0001020b0001030b0001040b0001050b0001060b0001070b0001080b0001;
0x1090b00010a0b00010b0b00010c0b00010d0b00010e0b00010f0b0001000c0001;
0x1010c0001020c0001030c0001040c0001050c0001060c0001070c0001080c0001;
0x1090c00010a0c00010b0c00010c0c00010d0c00010e0c00010f0c0001000d0001;
0x1010d0001020d0001030d0001040d0001050d0001060d0001070d0001080d0001;
0x1090d00010a0d00010b0d00010c0d00010d0d00010e0d00010f0d0001000e0001;
0x1010e0001020e0001030e0001040e0001050e0001060e0001070e0001080e0001;
0x1090e00010a0e00010b0e00010c0e00010d0e00010e0e00010f0e0001000f0001;
0x1010f0001020f0001030f0001040f0001050f0001060f0001070f0001080f0001;
0x1090f00010a0f00010b0f00010c0f00010d0f00010e0f00010f0f000152474241;
0x1000400000000000000000000fbfea0fffbfea0fffbfea0fffbfea0fffbfea0ff;
0x1fbfea0fffbfea0fffbfea0fffbfea0fffbfea0fffbfea0fffbfea0fffbfea0ff;
0x1fbfea0fffbfea0fffbfea0fffbfea0fffbfea0fffbfea0fffbfea0fffbfea0ff;
0x1fbfea0fffbfea0fffbfea0fffbfea0fffbfea0fffbfea0fffbfea0fffbfea0ff;
0x1fbfea0fffbfea0fffbfea0fffbfea0fffbfea0fffbfea0fffbfea0fffbfea0ff;
0x1fbfea0fffbfea0fffbfea0fffbfea0fffbfea0fffbfea0fffbfea0fffbfea0ff;
0x1fbfea0fffbfea0fffbfea0fffbfea0fffbfea0fffbfea0fffbfea0fffbfea0ff;
0x1fbfea0fffbfea0fffbfea0fffbfea0fffbfea0fffbfea0fffbfea0fffbfea0ff;
0x1fbfea0fffbfea0fffbfea0fffbfea0fffbfea0fffbfea0fffbfea0fffbfea0ff;
0x1fbfea0fffbfea0fffbfea0fffbfea0fffbfea0fffbfea0fffbfea0fffbfea0ff;
0x1fbfea0fffbfea0fffbfea0fffbfea0fffbfea0fffbfea0fffbfea0fffbfea0ff;
0x1fbfea0fffbfea0fffbfea0fffbfea0fffbfea0fffbfea0fffbfea0fffbfea0ff;
0x1fbfea0fffbfea0fffbfea0fffbfea0fffbfea0fffbfea0fffbfea0fffbfea0ff;
0x1fbfea0fffbfea0fffbfea0fffbfea0fffbfea0fffbfea0fffbfea0fffbfea0ff;
0x1fbfea0fffbfea0fffbfea0fffbfea0fffbfea0fffbfea0fffbfea0fffbfea0ff;
0x1fbfea0fffbfea0fffbfea0fffbfea0fffbfea0fffbfea0fffbfea0fffbfea0ff;
0x1fbfea0fffbfea0fffbfea0fffbfea0fffbfea0fffbfea0fffbfea0fffbfea0ff;
0x1fbfea0fffbfea0fffbfea0fffbfea0fffbfea0fffbfea0fffbfea0fffbfea0ff;
0x1fbfea0fffbfea0fffbfea0fffbfea0fffbfea0fffbfea0fffbfea0fffbfea0ff;
0x1fbfea0fffbfea0fffbfea0fffbfea0fffbfea0ff000000000000000000000000;
0x10000000000000000000000000000000000000000000000000000000000000000;
0x10000000000000000000000000000000000000000000000000000000000000000;
0x10000000000000000000000000000000000000000000000000000000000000000;
0x10000000000000000000000000000000000000000000000000000000000000000;
0x10000000000000000000000000000000000000000000000000000000000000000;
0x10000000000000000000000000000000000000000000000000000000000000000;
0x10000000000000000000000000000000000000000000000000000000000000000;
0x10000000000000000000000000000000000000000000000000000000000000000;
0x10000000000000000000000000000000000000000000000000000000000000000;
0x10000000000000000000000000000000000000000000000000000000000000000;
0x10000000000000000000000000000000000000000000000000000000000000000;
0x10000000000000000000000000000000000000000000000000000000000000000;
0x10000000000000000].
(** redeclipse/prefabs/egypt/stair.vox (2304 bytes) *)
Definition vox_egypt_stair : list Z := [
0x1564f5820960000004d41494e00000000ec08000053495a450c00000000000000;
0x108000000080000000800000058595a49bc040000000000002e01000000000001;
0x10100000102000001030000010400000105000001060000010700000100010001;
0x10101000102010001030100010401000105010001060100010701000100020001;
0x10102000102020001030200010402000105020001060200010702000100030001;
0x10103000102030001030300010403000105030001060300010703000100040001;
0x10104000102040001030400010404000105040001060400010704000100050001;
0x10105000102050001030500010405000105050001060500010705000100060001;
0x10106000102060001030600010406000105060001060600010706000100070001;
0x10107000102070001030700010407000105070001060700010707000100000101;
0x10100010102000101030001010400010105000101060001010700010101010101;
0x10201010103010101040101010501010106010101070101010102010102020101;
0x10302010104020101050201010602010107020101010301010203010103030101;
0x10403010105030101060301010703010101040101020401010304010104040101;
0x10504010106040101070401010105010102050101030501010405010105050101;
0x10605010107050101010601010206010103060101040601010506010106060101;
0x10706010100070101010701010207010103070101040701010507010106070101;
0x10707010101000201020002010300020104000201050002010600020107000201;
0x10201020103010201040102010501020106010201070102010202020103020201;
0x10402020105020201060202010702020102030201030302010403020105030201;
0x10603020107030201020402010304020104040201050402010604020107040201;
0x10205020103050201040502010505020106050201070502010206020103060201;
0x10406020105060201060602010706020101070201020702010307020104070201;
0x10507020106070201070702010200030103000301040003010500030106000301;
0x10700030103010301040103010501030106010301070103010302030104020301;
0x10502030106020301070203010303030104030301050303010603030107030301;
0x10304030104040301050403010604030107040301030503010405030105050301;
0x10605030107050301030603010406030105060301060603010706030102070301;
0x10307030104070301050703010607030107070301030004010400040105000401;
0x10600040107000401040104010501040106010401070104010402040105020401;
0x10602040107020401040304010503040106030401070304010404040105040401;
0x10604040107040401040504010505040106050401070504010406040105060401;
0x10606040107060401030704010407040105070401060704010707040104000501;
0x10500050106000501070005010501050106010501070105010502050106020501;
0x10702050105030501060305010703050105040501060405010704050105050501;
0x10605050107050501050605010606050107060501040705010507050106070501;
0x10707050105000601060006010700060106010601070106010602060107020601;
0x10603060107030601060406010704060106050601070506010606060107060601;
0x10507060106070601070706010600070107000701070107010702070107030701;
0x10704070107050701070607010607070107070701524742410004000000000000;
0x100000000fbfea0fffbfea0fffbfea0fffbfea0fffbfea0fffbfea0fffbfea0ff;
0x1fbfea0fffbfea0fffbfea0fffbfea0fffbfea0fffbfea0fffbfea0fffbfea0ff;
0x1fbfea0fffbfea0fffbfea0fffbfea0fffbfea0fffbfea0fffbfea0fffbfea0ff;
0x1fbfea0fffbfea0fffbfea0fffbfea0fffbfea0fffbfea0fffbfea0fffbfea0ff;
0x1fbfea0fffbfea0fffbfea0fffbfea0fffbfea0fffbfea0fffbfea0fffbfea0ff;
0x1fbfea0fffbfea0fffbfea0fffbfea0fffbfea0fffbfea0fffbfea0fffbfea0ff;
0x1fbfea0fffbfea0fffbfea0fffbfea0fffbfea0fffbfea0fffbfea0fffbfea0ff;
0x1fbfea0fffbfea0fffbfea0fffbfea0fffbfea0fffbfea0fffbfea0fffbfea0ff;
0x1fbfea0fffbfea0fffbfea0fffbfea0fffbfea0fffbfea0fffbfea0fffbfea0ff;
0x1fbfea0fffbfea0fffbfea0fffbfea0fffbfea0fffbfea0fffbfea0fffbfea0ff;
0x1fbfea0fffbfea0fffbfea0fffbfea0fffbfea0fffbfea0fffbfea0fffbfea0ff;
0x1fbfea0fffbfea0fffbfea0fffbfea0fffbfea0fffbfea0fffbfea0fffbfea0ff;
0x1fbfea0fffbfea0fffbfea0fffbfea0fffbfea0fffbfea0fffbfea0fffbfea0ff;
0x1fbfea0fffbfea0fffbfea0fffbfea0fffbfea0fffbfea0fffbfea0fffbfea0ff;
0x1fbfea0fffbfea0fffbfea0fffbfea0fffbfea0fffbfea0fffbfea0fffbfea0ff;
0x1fbfea0fffbfea0fffbfea0fffbfea0fffbfea0fffbfea0fffbfea0fffbfea0ff;
0x1fbfea0fffbfea0fffbfea0fffbfea0fffbfea0fffbfea0fffbfea0fffbfea0ff;
0x1fbfea0fffbfea0fffbfea0fffbfea0fffbfea0fffbfea0fffbfea0fffbfea0ff;
0x1fbfea0fffbfea0fffbfea0fffbfea0fffbfea0fffbfea0fffbfea0fffbfea0ff;
0x1fbfea0fffbfea0fffbfea0ff0000000000000000000000000000000000000000;
0x10000000000000000000000000000000000000000000000000000000000000000;
0x10000000000000000000000000000000000000000000000000000000000000000;
0x10000000000000000000000000000000000000000000000000000000000000000;
0x10000000000000000000000000000000000000000000000000000000000000000;
0x10000000000000000000000000000000000000000000000000000000000000000;
0x10000000000000000000000000000000000000000000000000000000000000000;
0x10000000000000000000000000000000000000000000000000000000000000000;
0x10000000000000000000000000000000000000000000000000000000000000000;
0x10000000000000000000000000000000000000000000000000000000000000000;
0x10000000000000000000000000000000000000000000000000000000000000000;
0x10000000000000000000000000000000000000000000000000000000000000000;
0x10000000000000000000000000000000000000000000000000000000000000000].
(** redeclipse/prefabs/egypt/stair_toplatform.vox (4352 bytes) *)
Definition vox_egypt_stair_toplatform : list Z := [
0x1564f5820960000004d41494e00000000ec10000053495a450c00000000000000;
0x110000000080000000800000058595a49bc0c0000000000002e03000000000001;
0x10100000102000001030000010400000105000001060000010700000108000001;
0x1090000010a0000010b0000010c0000010d0000010e0000010f00000100010001;
0x10101000102010001030100010401000105010001060100010701000108010001;
0x1090100010a0100010b0100010c0100010d0100010e0100010f01000100020001;
0x10102000102020001030200010402000105020001060200010702000108020001;
0x1090200010a0200010b0200010c0200010d0200010e0200010f02000100030001;
0x10103000102030001030300010403000105030001060300010703000108030001;
0x1090300010a0300010b0300010c0300010d0300010e0300010f03000100040001;
0x10104000102040001030400010404000105040001060400010704000108040001;
0x1090400010a0400010b0400010c0400010d0400010e0400010f04000100050001;
0x10105000102050001030500010405000105050001060500010705000108050001;
0x1090500010a0500010b0500010c0500010d0500010e0500010f05000100060001;
0x10106000102060001030600010406000105060001060600010706000108060001;
0x1090600010a0600010b0600010c0600010d0600010e0600010f06000100070001;
0x10107000102070001030700010407000105070001060700010707000108070001;
0x1090700010a0700010b0700010c0700010d0700010e0700010f07000100000101;
0x10100010102000101030001010400010105000101060001010700010108000101;
0x1090001010a0001010b0001010c0001010d0001010e0001010f00010101010101;
0x10201010103010101040101010501010106010101070101010801010109010101;
0x10a0101010b0101010c0101010d0101010e0101010f0101010102010102020101;
0x1030201010402010105020101060201010702010108020101090201010a020101;
0x10b0201010c0201010d0201010e0201010f020101010301010203010103030101;
0x10403010105030101060301010703010108030101090301010a0301010b030101;
0x10c0301010d0301010e0301010f03010101040101020401010304010104040101;
0x105040101060401010704010108040101090401010a0401010b0401010c040101;
0x10d0401010e0401010f0401010105010102050101030501010405010105050101;
0x1060501010705010108050101090501010a0501010b0501010c0501010d050101;
0x10e0501010f050101010601010206010103060101040601010506010106060101;
0x10706010108060101090601010a0601010b0601010c0601010d0601010e060101;
0x10f06010100070101010701010207010103070101040701010507010106070101;
0x10707010108070101090701010a0701010b0701010c0701010d0701010e070101;
0x10f07010101000201020002010300020104000201050002010600020107000201;
0x108000201090002010a0002010b0002010c0002010d0002010e0002010f000201;
0x10201020103010201040102010501020106010201070102010801020109010201;
0x10a0102010b0102010c0102010d0102010e0102010f0102010202020103020201;
0x10402020105020201060202010702020108020201090202010a0202010b020201;
0x10c0202010d0202010e0202010f02020102030201030302010403020105030201;
0x1060302010703020108030201090302010a0302010b0302010c0302010d030201;
0x10e0302010f030201020402010304020104040201050402010604020107040201;
0x108040201090402010a0402010b0402010c0402010d0402010e0402010f040201;
0x10205020103050201040502010505020106050201070502010805020109050201;
0x10a0502010b0502010c0502010d0502010e0502010f0502010206020103060201;
0x10406020105060201060602010706020108060201090602010a0602010b060201;
0x10c0602010d0602010e0602010f06020101070201020702010307020104070201;
0x105070201060702010707020108070201090702010a0702010b0702010c070201;
0x10d0702010e0702010f0702010200030103000301040003010500030106000301;
0x10700030108000301090003010a0003010b0003010c0003010d0003010e000301;
0x10f00030103010301040103010501030106010301070103010801030109010301;
0x10a0103010b0103010c0103010d0103010e0103010f0103010302030104020301;
0x105020301060203010702030108020301090203010a0203010b0203010c020301;
0x10d0203010e0203010f0203010303030104030301050303010603030107030301;
0x108030301090303010a0303010b0303010c0303010d0303010e0303010f030301;
0x1030403010404030105040301060403010704030108040301090403010a040301;
0x10b0403010c0403010d0403010e0403010f040301030503010405030105050301;
0x1060503010705030108050301090503010a0503010b0503010c0503010d050301;
0x10e0503010f050301030603010406030105060301060603010706030108060301;
0x1090603010a0603010b0603010c0603010d0603010e0603010f06030102070301;
0x1030703010407030105070301060703010707030108070301090703010a070301;
0x10b0703010c0703010d0703010e0703010f070301030004010400040105000401;
0x1060004010700040108000401090004010a0004010b0004010c0004010d000401;
0x10e0004010f000401040104010501040106010401070104010801040109010401;
0x10a0104010b0104010c0104010d0104010e0104010f0104010402040105020401;
0x1060204010702040108020401090204010a0204010b0204010c0204010d020401;
0x10e0204010f020401040304010503040106030401070304010803040109030401;
0x10a0304010b0304010c0304010d0304010e0304010f0304010404040105040401;
0x1060404010704040108040401090404010a0404010b0404010c0404010d040401;
0x10e0404010f040401040504010505040106050401070504010805040109050401;
0x10a0504010b0504010c0504010d0504010e0504010f0504010406040105060401;
0x1060604010706040108060401090604010a0604010b0604010c0604010d060401;
0x10e0604010f060401030704010407040105070401060704010707040108070401;
0x1090704010a0704010b0704010c0704010d0704010e0704010f07040104000501;
0x105000501060005010700050108000501090005010a0005010b0005010c000501;
0x10d0005010e0005010f0005010501050106010501070105010801050109010501;
0x10a0105010b0105010c0105010d0105010e0105010f0105010502050106020501;
0x10702050108020501090205010a0205010b0205010c0205010d0205010e020501;
0x10f02050105030501060305010703050108030501090305010a0305010b030501;
0x10c0305010d0305010e0305010f03050105040501060405010704050108040501;
0x1090405010a0405010b0405010c0405010d0405010e0405010f04050105050501;
0x1060505010705050108050501090505010a0505010b0505010c0505010d050501;
0x10e0505010f05050105060501060605010706050108060501090605010a060501;
0x10b0605010c0605010d0605010e0605010f060501040705010507050106070501;
0x10707050108070501090705010a0705010b0705010c0705010d0705010e070501;
0x10f07050105000601060006010700060108000601090006010a0006010b000601;
0x10c0006010d0006010e0006010f00060106010601070106010801060109010601;
0x10a0106010b0106010c0106010d0106010e0106010f0106010602060107020601;
0x108020601090206010a0206010b0206010c0206010d0206010e0206010f020601;
0x1060306010703060108030601090306010a0306010b0306010c0306010d030601;
0x10e0306010f030601060406010704060108040601090406010a0406010b040601;
0x10c0406010d0406010e0406010f04060106050601070506010805060109050601;
0x10a0506010b0506010c0506010d0506010e0506010f0506010606060107060601;
0x108060601090606010a0606010b0606010c0606010d0606010e0606010f060601;
0x105070601060706010707060108070601090706010a0706010b0706010c070601;
0x10d0706010e0706010f070601060007010700070108000701090007010a000701;
0x10b0007010c0007010d0007010e0007010f000701070107010801070109010701;
0x10a0107010b0107010c0107010d0107010e0107010f0107010702070108020701;
0x1090207010a0207010b0207010c0207010d0207010e0207010f02070107030701;
0x108030701090307010a0307010b0307010c0307010d0307010e0307010f030701;
0x10704070108040701090407010a0407010b0407010c0407010d0407010e040701;
0x10f0407010705070108050701090507010a0507010b0507010c0507010d050701;
0x10e0507010f0507010706070108060701090607010a0607010b0607010c060701;
0x10d0607010e0607010f060701060707010707070108070701090707010a070701;
0x10b0707010c0707010d0707010e0707010f070701524742410004000000000000;
0x100000000fbfea0fffbfea0fffbfea0fffbfea0fffbfea0fffbfea0fffbfea0ff;
0x1fbfea0fffbfea0fffbfea0fffbfea0fffbfea0fffbfea0fffbfea0fffbfea0ff;
0x1fbfea0fffbfea0fffbfea0fffbfea0fffbfea0fffbfea0fffbfea0fffbfea0ff;
0x1fbfea0fffbfea0fffbfea0fffbfea0fffbfea0fffbfea0fffbfea0fffbfea0ff;
0x1fbfea0fffbfea0fffbfea0fffbfea0fffbfea0fffbfea0fffbfea0fffbfea0ff;
0x1fbfea0fffbfea0fffbfea0fffbfea0fffbfea0fffbfea0fffbfea0fffbfea0ff;
0x1fbfea0fffbfea0fffbfea0fffbfea0fffbfea0fffbfea0fffbfea0fffbfea0ff;
0x1fbfea0fffbfea0fffbfea0fffbfea0fffbfea0fffbfea0fffbfea0fffbfea0ff;
0x1fbfea0fffbfea0fffbfea0fffbfea0fffbfea0fffbfea0fffbfea0fffbfea0ff;
0x1fbfea0fffbfea0fffbfea0fffbfea0fffbfea0fffbfea0fffbfea0fffbfea0ff;
0x1fbfea0fffbfea0fffbfea0fffbfea0fffbfea0fffbfea0fffbfea0fffbfea0ff;
0x1fbfea0fffbfea0fffbfea0fffbfea0fffbfea0fffbfea0fffbfea0fffbfea0ff;
0x1fbfea0fffbfea0fffbfea0fffbfea0fffbfea0fffbfea0fffbfea0fffbfea0ff;
0x1fbfea0fffbfea0fffbfea0fffbfea0fffbfea0fffbfea0fffbfea0fffbfea0ff;
0x1fbfea0fffbfea0fffbfea0fffbfea0fffbfea0fffbfea0fffbfea0fffbfea0ff;
0x1fbfea0fffbfea0fffbfea0fffbfea0fffbfea0fffbfea0fffbfea0fffbfea0ff;
0x1fbfea0fffbfea0fffbfea0fffbfea0fffbfea0fffbfea0fffbfea0fffbfea0ff;
0x1fbfea0fffbfea0fffbfea0fffbfea0fffbfea0fffbfea0fffbfea0fffbfea0ff;
0x1fbfea0fffbfea0fffbfea0fffbfea0fffbfea0fffbfea0fffbfea0fffbfea0ff;
0x1fbfea0fffbfea0fffbfea0fffbfea0fffbfea0fffbfea0fffbfea0fffbfea0ff;
0x1fbfea0fffbfea0fffbfea0fffbfea0fffbfea0fffbfea0fffbfea0fffbfea0ff;
0x1fbfea0fffbfea0fffbfea0fffbfea0fffbfea0fffbfea0fffbfea0fffbfea0ff;
0x1fbfea0fffbfea0fffbfea0fffbfea0fffbfea0fffbfea0ff0000000000000000;
0x10000000000000000000000000000000000000000000000000000000000000000;
0x10000000000000000000000000000000000000000000000000000000000000000;
0x10000000000000000000000000000000000000000000000000000000000000000;
0x10000000000000000000000000000000000000000000000000000000000000000;
0x10000000000000000000000000000000000000000000000000000000000000000;
0x10000000000000000000000000000000000000000000000000000000000000000;
0x10000000000000000000000000000000000000000000000000000000000000000;
0x10000000000000000000000000000000000000000000000000000000000000000;
0x10000000000000000000000000000000000000000000000000000000000000000].
(** redeclipse/prefabs/egypt/statue.vox (2872 bytes) *)
Definition vox_egypt_statue : list Z := [
0x1564f5820960000004d41494e00000000240b000053495a450c00000000000000;
0x108000000100000001000000058595a49f406000000000000bc01000000000016;
0x10100001602000016030000160400001605000016060000160700001600010016;
0x10101001602010016030100160401001605010016060100160701001600020016;
0x10102001602020016030200160402001605020016060200160702001600030016;
0x10103001602030016030300160403001605030016060300160703001600040016;
0x10104001602040016030400160404001605040016060400160704001600050016;
0x10105001602050016030500160405001605050016060500160705001600060016;
0x10106001602060016030600160406001605060016060600160706001600070016;
0x10107001602070016030700160407001605070016060700160707001600080016;
0x10108001602080016030800160408001605080016060800160708001600090016;
0x101090016020900160309001604090016050900160609001607090016000a0016;
0x1010a0016020a0016030a0016040a0016050a0016060a0016070a0016000b0016;
0x1010b0016020b0016030b0016040b0016050b0016060b0016070b0016000c0016;
0x1010c0016020c0016030c0016040c0016050c0016060c0016070c0016000d0016;
0x1010d0016020d0016030d0016040d0016050d0016060d0016070d0016000e0016;
0x1010e0016020e0016030e0016040e0016050e0016060e0016070e0016000f0016;
0x1010f0016020f0016030f0016040f0016050f0016060f0016070f001602080101;
0x1050801010209010105090101000a0101010a0101020a0101030a0101040a0101;
0x1050a0101060a0101070a0101000b0101010b0101020b0101030b0101040b0101;
0x1050b0101060b0101070b0101000c0101010c0101020c0101030c0101040c0101;
0x1050c0101060c0101070c0101000d0101010d0101020d0101030d0101040d0101;
0x1050d0101060d0101070d0101000e0101010e0101020e0101030e0101040e0101;
0x1050e0101060e0101070e0101000f0101010f0101020f0101030f0101040f0101;
0x1050f0101060f0101070f010102080201050802010209020105090201000a0201;
0x1010a0201020a0201030a0201040a0201050a0201060a0201070a0201000b0201;
0x1010b0201020b0201030b0201040b0201050b0201060b0201070b0201000c0201;
0x1010c0201020c0201030c0201040c0201050c0201060c0201070c0201000d0201;
0x1010d0201020d0201030d0201040d0201050d0201060d0201070d0201000e0201;
0x1010e0201020e0201030e0201040e0201050e0201060e0201070e0201000f0201;
0x1010f0201020f0201030f0201040f0201050f0201060f0201070f020102080301;
0x1050803010209030105090301000a0301010a0301020a0301030a0301040a0301;
0x1050a0301060a0301070a0301000b0301010b0301020b0301030b0301040b0301;
0x1050b0301060b0301070b0301000c0301010c0301020c0301030c0301040c0301;
0x1050c0301060c0301070c0301000d0301010d0301020d0301030d0301040d0301;
0x1050d0301060d0301070d0301000e0301010e0301020e0301030e0301040e0301;
0x1050e0301060e0301070e0301000f0301010f0301020f0301030f0301040f0301;
0x1050f0301060f0301070f030102080401050804010209040105090401000a0401;
0x1020a0401050a0401070a0401000b0401020b0401050b0401070b0401000c0401;
0x1020c0401030c0401040c0401050c0401070c0401000d0401020d0401030d0401;
0x1040d0401050d0401070d0401000e0401020e0401030e0401040e0401050e0401;
0x1070e0401000f0401010f0401020f0401030f0401040f0401050f0401060f0401;
0x1070f040102080501050805010209050105090501020a0501050a0501020b0501;
0x1050b0501020c0501030c0501040c0501050c0501020d0501030d0501040d0501;
0x1050d0501020e0501030e0501040e0501050e0501020b0601030b0601040b0601;
0x1050b0601060b0601020d0601030d0601040d0601050d0601020e0601030e0601;
0x1040e0601050e0601010b0701020b0701030b0701040b0701060b0701010c0701;
0x1060c0701020d0701030d0701040d0701050d0701020e0701030e0701040e0701;
0x1050e0701010b0801060b0801010c0801060c0801010d0801020d0801030d0801;
0x1040d0801050d0801060d0801020e0801030e0801040e0801050e0801010c0901;
0x1060c0901010d0901020d0901030d0901040d0901050d0901060d0901010e0901;
0x1020e0901030e0901040e0901050e0901060e0901010d0a01020d0a01030d0a01;
0x1040d0a01050d0a01060d0a01010e0a01020e0a01030e0a01040e0a01050e0a01;
0x1060e0a01030d0b01040d0b01030e0b01040e0b01030c0c01040c0c01030d0c01;
0x1040d0c01030e0c01040e0c01030c0d01040c0d01020d0d01030d0d01040d0d01;
0x1050d0d01020e0d01030e0d01040e0d01050e0d01030c0e01040c0e01020d0e01;
0x1030d0e01040d0e01050d0e01020e0e01030e0e01040e0e01050e0e01030d0f01;
0x1040d0f01030e0f01040e0f0152474241000400000000000000000000272727ff;
0x1272727ff272727ff272727ff272727ff272727ff272727ff272727ff272727ff;
0x1272727ff272727ff272727ff272727ff272727ff272727ff272727ff272727ff;
0x1272727ff272727ff272727ff272727fffbfea0fffbfea0fffbfea0fffbfea0ff;
0x1fbfea0fffbfea0fffbfea0fffbfea0fffbfea0fffbfea0fffbfea0fffbfea0ff;
0x1fbfea0fffbfea0fffbfea0fffbfea0fffbfea0fffbfea0fffbfea0fffbfea0ff;
0x1fbfea0fffbfea0fffbfea0fffbfea0fffbfea0fffbfea0fffbfea0fffbfea0ff;
0x1fbfea0fffbfea0fffbfea0fffbfea0fffbfea0fffbfea0fffbfea0ff272727ff;
0x1272727ff272727ff272727ff272727ff272727ff272727ff272727ff272727ff;
0x1272727ff272727ff272727ff272727ff272727ff272727ff272727ff272727ff;
0x1272727ff272727ff272727ff272727ff272727ff272727ff272727ff272727ff;
0x1272727ff272727ff272727ff272727ff272727ff272727ff272727ff272727ff;
0x1272727ff272727ff272727ff272727ff272727ff272727ff272727ff272727ff;
0x1272727ff272727ff272727ff272727ff272727ff272727ff272727ff272727ff;
0x1272727ff272727ff272727ff272727ff272727ff272727ff272727ff272727ff;
0x1272727ff272727ff272727ff272727ff272727ff272727ff272727ff272727ff;
0x1272727ff272727ff272727ff272727ff272727ff272727ff272727ff272727ff;
0x1272727ff272727ff272727ff272727ff272727ff272727ff272727ff272727ff;
0x1272727ff272727ff272727ff272727ff272727ff272727ff272727ff272727ff;
0x1272727ff272727ff272727ff272727ff272727ff272727ff272727ff272727ff;
0x1272727ff272727ff272727ff272727ff00000000000000000000000000000000;
0x10000000000000000000000000000000000000000000000000000000000000000;
0x10000000000000000000000000000000000000000000000000000000000000000;
0x10000000000000000000000000000000000000000000000000000000000000000;
0x10000000000000000000000000000000000000000000000000000000000000000;
0x10000000000000000000000000000000000000000000000000000000000000000;
0x10000000000000000000000000000000000000000000000000000000000000000;
0x10000000000000000000000000000000000000000000000000000000000000000;
0x10000000000000000000000000000000000000000000000000000000000000000;
0x10000000000000000000000000000000000000000000000000000000000000000;
0x10000000000000000000000000000000000000000000000000000000000000000;
0x10000000000000000000000000000000000000000000000000000000000000000;
0x1000000000000000000000000000000000000000000000000].
(** redeclipse/prefabs/egypt/statue_cat.vox (4924 bytes) *)
Definition vox_egypt_statue_cat : list Z := [
0x1564f5820960000004d41494e000000002813000053495a450c00000000000000;
0x120000000180000000900000058595a49f80e000000000000bd0300000000001d;
0x10100001d0200001d0300001d0400001d0500001d0600001d0700001d0800001d;
0x10900001d0a00001d0b00001d0c00001d0d00001d0e00001d0f00001d1000001d;
0x11100001d1200001d1300001d1400001d1500001d1600001d1700001d1800001d;
0x11900001d1a00001d1b00001d1c00001d1d00001d1e00001d1f00001d0001001d;
0x10101001d0201001d0301001d0401001d0501001d0601001d0701001d0801001d;
0x10901001d0a01001d0b01001d0c01001d0d01001d0e01001d0f01001d1001001d;
0x11101001d1201001d1301001d1401001d1501001d1601001d1701001d1801001d;
0x11901001d1a01001d1b01001d1c01001d1d01001d1e01001d1f01001d0002001d;
0x10102001d0202001d0302001d0402001d0502001d0602001d0702001d0802001d;
0x10902001d0a02001d0b02001d0c02001d0d02001d0e02001d0f02001d1002001d;
0x11102001d1202001d1302001d1402001d1502001d1602001d1702001d1802001d;
0x11902001d1a02001d1b02001d1c02001d1d02001d1e02001d1f02001d0003001d;
0x10103001d0203001d0303001d0403001d0503001d0603001d0703001d0803001d;
0x10903001d0a03001d0b03001d0c03001d0d03001d0e03001d0f03001d1003001d;
0x11103001d1203001d1303001d1403001d1503001d1603001d1703001d1803001d;
0x11903001d1a03001d1b03001d1c03001d1d03001d1e03001d1f03001d0004001d;
0x10104001d0204001d0304001d0404001d0504001d0604001d0704001d0804001d;
0x10904001d0a04001d0b04001d0c04001d0d04001d0e04001d0f04001d1004001d;
0x11104001d1204001d1304001d1404001d1504001d1604001d1704001d1804001d;
0x11904001d1a04001d1b04001d1c04001d1d04001d1e04001d1f04001d0005001d;
0x10105001d0205001d0305001d0405001d0505001d0605001d0705001d0805001d;
0x10905001d0a05001d0b05001d0c05001d0d05001d0e05001d0f05001d1005001d;
0x11105001d1205001d1305001d1405001d1505001d1605001d1705001d1805001d;
0x11905001d1a05001d1b05001d1c05001d1d05001d1e05001d1f05001d0006001d;
0x10106001d0206001d0306001d0406001d0506001d0606001d0706001d0806001d;
0x10906001d0a06001d0b06001d0c06001d0d06001d0e06001d0f06001d1006001d;
0x11106001d1206001d1306001d1406001d1506001d1606001d1706001d1806001d;
0x11906001d1a06001d1b06001d1c06001d1d06001d1e06001d1f06001d0007001d;
0x10107001d0207001d0307001d0407001d0507001d0607001d0707001d0807001d;
0x10907001d0a07001d0b07001d0c07001d0d07001d0e07001d0f07001d1007001d;
0x11107001d1207001d1307001d1407001d1507001d1607001d1707001d1807001d;
0x11907001d1a07001d1b07001d1c07001d1d07001d1e07001d1f07001d0008001d;
0x10108001d0208001d0308001d0408001d0508001d0608001d0708001d0808001d;
0x10908001d0a08001d0b08001d0c08001d0d08001d0e08001d0f08001d1008001d;
0x11108001d1208001d1308001d1408001d1508001d1608001d1708001d1808001d;
0x11908001d1a08001d1b08001d1c08001d1d08001d1e08001d1f08001d0009001d;
0x10109001d0209001d0309001d0409001d0509001d0609001d0709001d0809001d;
0x10909001d0a09001d0b09001d0c09001d0d09001d0e09001d0f09001d1009001d;
0x11109001d1209001d1309001d1409001d1509001d1609001d1709001d1809001d;
0x11909001d1a09001d1b09001d1c09001d1d09001d1e09001d1f09001d000a001d;
0x1010a001d020a001d030a001d040a001d050a001d060a001d070a001d080a001d;
0x1090a001d0a0a001d0b0a001d0c0a001d0d0a001d0e0a001d0f0a001d100a001d;
0x1110a001d120a001d130a001d140a001d150a001d160a001d170a001d180a001d;
0x1190a001d1a0a001d1b0a001d1c0a001d1d0a001d1e0a001d1f0a001d000b001d;
0x1010b001d020b001d030b001d040b001d050b001d060b001d070b001d080b001d;
0x1090b001d0a0b001d0b0b001d0c0b001d0d0b001d0e0b001d0f0b001d100b001d;
0x1110b001d120b001d130b001d140b001d150b001d160b001d170b001d180b001d;
0x1190b001d1a0b001d1b0b001d1c0b001d1d0b001d1e0b001d1f0b001d000c001d;
0x1010c001d020c001d030c001d040c001d050c001d060c001d070c001d080c001d;
0x1090c001d0a0c001d0b0c001d0c0c001d0d0c001d0e0c001d0f0c001d100c001d;
0x1110c001d120c001d130c001d140c001d150c001d160c001d170c001d180c001d;
0x1190c001d1a0c001d1b0c001d1c0c001d1d0c001d1e0c001d1f0c001d000d001d;
0x1010d001d020d001d030d001d040d001d050d001d060d001d070d001d080d001d;
0x1090d001d0a0d001d0b0d001d0c0d001d0d0d001d0e0d001d0f0d001d100d001d;
0x1110d001d120d001d130d001d140d001d150d001d160d001d170d001d180d001d;
0x1190d001d1a0d001d1b0d001d1c0d001d1d0d001d1e0d001d1f0d001d000e001d;
0x1010e001d020e001d030e001d040e001d050e001d060e001d070e001d080e001d;
0x1090e001d0a0e001d0b0e001d0c0e001d0d0e001d0e0e001d0f0e001d100e001d;
0x1110e001d120e001d130e001d140e001d150e001d160e001d170e001d180e001d;
0x1190e001d1a0e001d1b0e001d1c0e001d1d0e001d1e0e001d1f0e001d000f001d;
0x1010f001d020f001d030f001d040f001d050f001d060f001d070f001d080f001d;
0x1090f001d0a0f001d0b0f001d0c0f001d0d0f001d0e0f001d0f0f001d100f001d;
0x1110f001d120f001d130f001d140f001d150f001d160f001d170f001d180f001d;
0x1190f001d1a0f001d1b0f001d1c0f001d1d0f001d1e0f001d1f0f001d0010001d;
0x10110001d0210001d0310001d0410001d0510001d0610001d0710001d0810001d;
0x10910001d0a10001d0b10001d0c10001d0d10001d0e10001d0f10001d1010001d;
0x11110001d1210001d1310001d1410001d1510001d1610001d1710001d1810001d;
0x11910001d1a10001d1b10001d1c10001d1d10001d1e10001d1f10001d0011001d;
0x10111001d0211001d0311001d0411001d0511001d0611001d0711001d0811001d;
0x10911001d0a11001d0b11001d0c11001d0d11001d0e11001d0f11001d1011001d;
0x11111001d1211001d1311001d1411001d1511001d1611001d1711001d1811001d;
0x11911001d1a11001d1b11001d1c11001d1d11001d1e11001d1f11001d0012001d;
0x10112001d0212001d0312001d0412001d0512001d0612001d0712001d0812001d;
0x10912001d0a12001d0b12001d0c12001d0d12001d0e12001d0f12001d1012001d;
0x11112001d1212001d1312001d1412001d1512001d1612001d1712001d1812001d;
0x11912001d1a12001d1b12001d1c12001d1d12001d1e12001d1f12001d0013001d;
0x10113001d0213001d0313001d0413001d0513001d0613001d0713001d0813001d;
0x10913001d0a13001d0b13001d0c13001d0d13001d0e13001d0f13001d1013001d;
0x11113001d1213001d1313001d1413001d1513001d1613001d1713001d1813001d;
0x11913001d1a13001d1b13001d1c13001d1d13001d1e13001d1f13001d0014001d;
0x10114001d0214001d0314001d0414001d0514001d0614001d0714001d0814001d;
0x10914001d0a14001d0b14001d0c14001d0d14001d0e14001d0f14001d1014001d;
0x11114001d1214001d1314001d1414001d1514001d1614001d1714001d1814001d;
0x11914001d1a14001d1b14001d1c14001d1d14001d1e14001d1f14001d0015001d;
0x10115001d0215001d0315001d0415001d0515001d0615001d0715001d0815001d;
0x10915001d0a15001d0b15001d0c15001d0d15001d0e15001d0f15001d1015001d;
0x11115001d1215001d1315001d1415001d1515001d1615001d1715001d1815001d;
0x11915001d1a15001d1b15001d1c15001d1d15001d1e15001d1f15001d0016001d;
0x10116001d0216001d0316001d0416001d0516001d0616001d0716001d0816001d;
0x10916001d0a16001d0b16001d0c16001d0d16001d0e16001d0f16001d1016001d;
0x11116001d1216001d1316001d1416001d1516001d1616001d1716001d1816001d;
0x11916001d1a16001d1b16001d1c16001d1d16001d1e16001d1f16001d0017001d;
0x10117001d0217001d0317001d0417001d0517001d0617001d0717001d0817001d;
0x10917001d0a17001d0b17001d0c17001d0d17001d0e17001d0f17001d1017001d;
0x11117001d1217001d1317001d1417001d1517001d1617001d1717001d1817001d;
0x11917001d1a17001d1b17001d1c17001d1d17001d1e17001d1f17001d0b090101;
0x10c0901010d0901010e0901010f09010110090101110901011209010113090101;
0x114090101150901010b0a01010c0a01010d0a01010e0a01010f0a0101100a0101;
0x1110a0101120a0101090b01010a0b01010b0b01010c0b01010d0b01010e0b0101;
0x10f0b0101100b0101110b0101120b0101090c01010b0c01010c0c01010d0c0101;
0x10e0c01010f0c0101100c0101110c0101120c0101090d01010b0d01010c0d0101;
0x10d0d01010e0d01010f0d0101100d0101110d0101120d0101130d0101140d0101;
0x1150d0101090e0101090f01010a0f01010b0f01010c0f01010b0902010c090201;
0x10d0902010e0902010f090201100902011109020112090201130902010b0a0201;
0x10c0a02010d0a02010e0a02010f0a0201100a0201110a0201120a02010a0b0201;
0x10b0b02010c0b02010d0b02010e0b02010f0b0201100b0201110b0201120b0201;
0x10b0c02010c0c02010d0c02010e0c02010f0c0201100c0201110c0201120c0201;
0x10b0d02010c0d02010d0d02010e0d02010f0d0201100d0201110d0201120d0201;
0x1130d02010c0903010d0903010e0903010f090301100903011109030112090301;
0x10b0a03010c0a03010d0a03010e0a03010f0a0301100a0301110a0301120a0301;
0x10b0b03010c0b03010d0b03010e0b03010f0b0301100b0301110b0301120b0301;
0x10b0c03010c0c03010d0c03010e0c03010f0c0301100c0301110c0301120c0301;
0x10c0d03010d0d03010e0d03010f0d0301100d0301110d0301120d030110090401;
0x1110904010f0a0401100a0401110a0401120a04010f0b0401100b0401110b0401;
0x1120b0401130b04010f0c0401100c0401110c0401120c0401100d0401110d0401;
0x1100a0501110a0501120a0501130a0501150a0501100b0501110b0501120b0501;
0x1130b0501100c0501110c0501120c0501130c0501150c0501120a0601130a0601;
0x1140a0601110b0601120b0601130b0601140b0601150b0601120c0601130c0601;
0x1140c0601130a0701140a0701150a0701120b0701130b0701140b0701150b0701;
0x1130c0701140c0701150c0701140b080152474241000400000000000000000000;
0x1272727ff272727ff272727ff272727ff272727ff272727ff272727ff272727ff;
0x1272727ff272727ff272727ff272727ff272727ff272727ff272727ff272727ff;
0x1272727ff272727ff272727ff272727ff272727ff272727ff272727ff272727ff;
0x1272727ff272727ff272727ff272727fffbfea0fffbfea0fffbfea0fffbfea0ff;
0x1fbfea0fffbfea0fffbfea0fffbfea0fffbfea0fffbfea0fffbfea0fffbfea0ff;
0x1fbfea0fffbfea0fffbfea0fffbfea0fffbfea0fffbfea0fffbfea0fffbfea0ff;
0x1fbfea0fffbfea0fffbfea0fffbfea0fffbfea0fffbfea0fffbfea0fffbfea0ff;
0x1fbfea0fffbfea0fffbfea0fffbfea0fffbfea0fffbfea0fffbfea0fffbfea0ff;
0x1fbfea0fffbfea0fffbfea0fffbfea0fffbfea0fffbfea0fffbfea0fffbfea0ff;
0x1fbfea0fffbfea0fffbfea0fffbfea0fffbfea0fffbfea0fffbfea0fffbfea0ff;
0x1fbfea0fffbfea0fffbfea0fffbfea0fffbfea0fffbfea0fffbfea0fffbfea0ff;
0x1fbfea0fffbfea0fffbfea0fffbfea0fffbfea0fffbfea0fffbfea0fffbfea0ff;
0x1fbfea0fffbfea0fffbfea0fffbfea0fffbfea0fffbfea0fffbfea0fffbfea0ff;
0x1fbfea0fffbfea0fffbfea0fffbfea0fffbfea0fffbfea0fffbfea0fffbfea0ff;
0x1fbfea0fffbfea0fffbfea0fffbfea0fffbfea0fffbfea0fffbfea0fffbfea0ff;
0x1fbfea0fffbfea0fffbfea0fffbfea0fffbfea0fffbfea0fffbfea0ff272727ff;
0x1272727ff272727ff272727ff272727ff272727ff272727ff272727ff272727ff;
0x1272727ff272727ff272727ff272727ff272727ff272727ff272727ff272727ff;
0x1272727ff272727ff272727ff272727ff272727ff272727ff272727ff272727ff;
0x1272727ff272727ff272727ff272727ff272727ff272727ff272727ff272727ff;
0x1272727ff272727ff272727ff272727ff272727ff272727ff272727ff272727ff;
0x1272727ff272727ff272727ff0000000000000000000000000000000000000000;
0x10000000000000000000000000000000000000000000000000000000000000000;
0x10000000000000000000000000000000000000000000000000000000000000000;
0x10000000000000000000000000000000000000000000000000000000000000000;
0x10000000000000000000000000000000000000000000000000000000000000000;
0x10000000000000000000000000000000000000000000000000000000000000000;
0x10000000000000000000000000000000000000000000000000000000000000000;
0x10000000000000000000000000000000000000000000000000000000000000000;
0x10000000000000000000000000000000000000000000000000000000000000000;
0x10000000000000000000000000000000000000000000000000000000000000000;
0x100000000000000000000000000000000000000000000000000000000].
(** redeclipse/prefabs/egypt/water_square.vox (316 bytes) *)
Definition vox_egypt_water_square : list Z := [
0x1564f5820960000004d41494e000000002801000053495a450c00000000000000;
0x108000000080000000100000058595a49040100000000000040000000000000d3;
0x1010000d3020000d3030000d3040000d3050000d3060000d3070000d3000100d3;
0x1010100d3020100d3030100d3040100d3050100d3060100d3070100d3000200d3;
0x1010200d3020200d3030200d3040200d3050200d3060200d3070200d3000300d3;
0x1010300d3020300d3030300d3040300d3050300d3060300d3070300d3000400d3;
0x1010400d3020400d3030400d3040400d3050400d3060400d3070400d3000500d3;
0x1010500d3020500d3030500d3040500d3050500d3060500d3070500d3000600d3;
0x1010600d3020600d3030600d3040600d3050600d3060600d3070600d3000700d3;
0x1010700d3020700d3030700d3040700d3050700d3060700d3070700d3].
(** redeclipse/prefabs/egypt/wide_bridge_segment3.vox (3000 bytes) *)
Definition vox_egypt_wide_bridge_segment3 : list Z := [
0x1564f5820960000004d41494e00000000a40b000053495a450c00000000000000;
0x118000000080000000b00000058595a497407000000000000dc01000002020001;
0x10302000104020001050200011202000113020001140200011502000102030001;
0x10303000104030001050300011203000113030001140300011503000102040001;
0x10304000104040001050400011204000113040001140400011504000102050001;
0x10305000104050001050500011205000113050001140500011505000102020101;
0x10302010104020101050201011202010113020101140201011502010102030101;
0x10303010104030101050301011203010113030101140301011503010102040101;
0x10304010104040101050401011204010113040101140401011504010102050101;
0x10305010104050101050501011205010113050101140501011505010102020201;
0x10302020104020201050202011202020113020201140202011502020102030201;
0x10303020104030201050302011203020113030201140302011503020102040201;
0x10304020104040201050402011204020113040201140402011504020102050201;
0x10305020104050201050502011205020113050201140502011505020102020301;
0x10302030104020301050203011202030113020301140203011502030102030301;
0x10303030104030301050303011203030113030301140303011503030102040301;
0x10304030104040301050403011204030113040301140403011504030102050301;
0x10305030104050301050503011205030113050301140503011505030102020401;
0x10302040104020401050204011202040113020401140204011502040102030401;
0x10303040104030401050304011203040113030401140304011503040102040401;
0x10304040104040401050404011204040113040401140404011504040102050401;
0x10305040104050401050504011205040113050401140504011505040102020501;
0x10302050104020501050205011202050113020501140205011502050102030501;
0x10303050104030501050305011203050113030501140305011503050102040501;
0x10304050104040501050405011204050113040501140405011504050102050501;
0x10305050104050501050505011205050113050501140505011505050102020601;
0x10302060104020601050206011202060113020601140206011502060102030601;
0x10303060104030601050306011203060113030601140306011503060102040601;
0x10304060104040601050406011204060113040601140406011504060102050601;
0x10305060104050601050506011205060113050601140506011505060102020701;
0x10302070104020701050207011202070113020701140207011502070102030701;
0x10303070104030701050307011203070113030701140307011503070102040701;
0x10304070104040701050407011204070113040701140407011504070102050701;
0x10305070104050701050507011205070113050701140507011505070100000801;
0x10100080102000801030008010400080105000801060008010700080108000801;
0x1090008010a0008010b0008010c0008010d0008010e0008010f00080110000801;
0x11100080112000801130008011400080115000801160008011700080100010801;
0x10101080102010801030108010401080105010801060108010701080108010801;
0x1090108010a0108010b0108010c0108010d0108010e0108010f01080110010801;
0x11101080112010801130108011401080115010801160108011701080100020801;
0x10102080102020801030208010402080105020801060208010702080108020801;
0x1090208010a0208010b0208010c0208010d0208010e0208010f02080110020801;
0x11102080112020801130208011402080115020801160208011702080100030801;
0x10103080102030801030308010403080105030801060308010703080108030801;
0x1090308010a0308010b0308010c0308010d0308010e0308010f03080110030801;
0x11103080112030801130308011403080115030801160308011703080100040801;
0x10104080102040801030408010404080105040801060408010704080108040801;
0x1090408010a0408010b0408010c0408010d0408010e0408010f04080110040801;
0x11104080112040801130408011404080115040801160408011704080100050801;
0x10105080102050801030508010405080105050801060508010705080108050801;
0x1090508010a0508010b0508010c0508010d0508010e0508010f05080110050801;
0x11105080112050801130508011405080115050801160508011705080100060801;
0x10106080102060801030608010406080105060801060608010706080108060801;
0x1090608010a0608010b0608010c0608010d0608010e0608010f06080110060801;
0x11106080112060801130608011406080115060801160608011706080100070801;
0x10107080102070801030708010407080105070801060708010707080108070801;
0x1090708010a0708010b0708010c0708010d0708010e0708010f07080110070801;
0x11107080112070801130708011407080115070801160708011707080100000901;
0x11700090100010901170109010002090117020901000309011703090100040901;
0x11704090100050901170509010006090117060901000709011707090100000a01;
0x117000a0100010a0117010a0100030a0117030a0100040a0117040a0100060a01;
0x117060a0100070a0117070a0152474241000400000000000000000000fbfea0ff;
0x1fbfea0fffbfea0fffbfea0fffbfea0fffbfea0fffbfea0fffbfea0fffbfea0ff;
0x1fbfea0fffbfea0fffbfea0fffbfea0fffbfea0fffbfea0fffbfea0fffbfea0ff;
0x1fbfea0fffbfea0fffbfea0fffbfea0fffbfea0fffbfea0fffbfea0fffbfea0ff;
0x1fbfea0fffbfea0fffbfea0fffbfea0fffbfea0fffbfea0fffbfea0fffbfea0ff;
0x1fbfea0fffbfea0fffbfea0fffbfea0fffbfea0fffbfea0fffbfea0fffbfea0ff;
0x1fbfea0fffbfea0fffbfea0fffbfea0fffbfea0fffbfea0fffbfea0fffbfea0ff;
0x1fbfea0fffbfea0fffbfea0fffbfea0fffbfea0fffbfea0fffbfea0fffbfea0ff;
0x1fbfea0fffbfea0fffbfea0fffbfea0fffbfea0fffbfea0fffbfea0fffbfea0ff;
0x1fbfea0fffbfea0fffbfea0fffbfea0fffbfea0fffbfea0fffbfea0fffbfea0ff;
0x1fbfea0fffbfea0fffbfea0fffbfea0fffbfea0fffbfea0fffbfea0fffbfea0ff;
0x1fbfea0fffbfea0fffbfea0fffbfea0fffbfea0fffbfea0fffbfea0fffbfea0ff;
0x1fbfea0fffbfea0fffbfea0fffbfea0fffbfea0fffbfea0fffbfea0fffbfea0ff;
0x1fbfea0fffbfea0fffbfea0fffbfea0fffbfea0fffbfea0fffbfea0fffbfea0ff;
0x1fbfea0fffbfea0fffbfea0fffbfea0fffbfea0fffbfea0fffbfea0fffbfea0ff;
0x1fbfea0fffbfea0fffbfea0fffbfea0fffbfea0fffbfea0fffbfea0fffbfea0ff;
0x1fbfea0fffbfea0fffbfea0fffbfea0fffbfea0fffbfea0fffbfea0fffbfea0ff;
0x1fbfea0fffbfea0fffbfea0fffbfea0fffbfea0fffbfea0fffbfea0fffbfea0ff;
0x1fbfea0fffbfea0fffbfea0fffbfea0fffbfea0fffbfea0fffbfea0fffbfea0ff;
0x1fbfea0fffbfea0fffbfea0fffbfea0fffbfea0fffbfea0fffbfea0fffbfea0ff;
0x1fbfea0fffbfea0fffbfea0fffbfea0fffbfea0fffbfea0fffbfea0fffbfea0ff;
0x1fbfea0fffbfea0fffbfea0fffbfea0fffbfea0fffbfea0fffbfea0fffbfea0ff;
0x1fbfea0fffbfea0fffbfea0ff0000000000000000000000000000000000000000;
0x10000000000000000000000000000000000000000000000000000000000000000;
0x10000000000000000000000000000000000000000000000000000000000000000;
0x10000000000000000000000000000000000000000000000000000000000000000;
0x10000000000000000000000000000000000000000000000000000000000000000;
0x10000000000000000000000000000000000000000000000000000000000000000;
0x10000000000000000000000000000000000000000000000000000000000000000;
0x10000000000000000000000000000000000000000000000000000000000000000;
0x10000000000000000000000000000000000000000000000000000000000000000;
0x10000000000000000000000000000000000000000000000000000000000000000;
0x1000000000000000000000000000000000000000000000000].
(** redeclipse/prefabs/egypt/wide_bridge_segment3a.vox (13128 bytes) *)
Definition vox_egypt_wide_bridge_segment3a : list Z := [
0x1564f5820960000004d41494e000000003433000053495a450c00000000000000;
0x120000000080000002000000058595a49042f000000000000c00b000000000001;
0x10100000102000001030000010400000105000001060000010700000118000001;
0x1190000011a0000011b0000011c0000011d0000011e0000011f00000100010001;
0x10101000102010001030100010401000105010001060100010701000118010001;
0x1190100011a0100011b0100011c0100011d0100011e0100011f01000100020001;
0x10102000102020001030200010402000105020001060200010702000118020001;
0x1190200011a0200011b0200011c0200011d0200011e0200011f02000100030001;
0x10103000102030001030300010403000105030001060300010703000118030001;
0x1190300011a0300011b0300011c0300011d0300011e0300011f03000100040001;
0x10104000102040001030400010404000105040001060400010704000118040001;
0x1190400011a0400011b0400011c0400011d0400011e0400011f04000100050001;
0x10105000102050001030500010405000105050001060500010705000118050001;
0x1190500011a0500011b0500011c0500011d0500011e0500011f05000100060001;
0x10106000102060001030600010406000105060001060600010706000118060001;
0x1190600011a0600011b0600011c0600011d0600011e0600011f06000100070001;
0x10107000102070001030700010407000105070001060700010707000118070001;
0x1190700011a0700011b0700011c0700011d0700011e0700011f07000100000101;
0x10100010102000101030001010400010105000101060001010700010118000101;
0x1190001011a0001011b0001011c0001011d0001011e0001011f00010100010101;
0x10101010102010101030101010401010105010101060101010701010118010101;
0x1190101011a0101011b0101011c0101011d0101011e0101011f01010100020101;
0x10102010102020101030201010402010105020101060201010702010118020101;
0x1190201011a0201011b0201011c0201011d0201011e0201011f02010100030101;
0x10103010102030101030301010403010105030101060301010703010118030101;
0x1190301011a0301011b0301011c0301011d0301011e0301011f03010100040101;
0x10104010102040101030401010404010105040101060401010704010118040101;
0x1190401011a0401011b0401011c0401011d0401011e0401011f04010100050101;
0x10105010102050101030501010405010105050101060501010705010118050101;
0x1190501011a0501011b0501011c0501011d0501011e0501011f05010100060101;
0x10106010102060101030601010406010105060101060601010706010118060101;
0x1190601011a0601011b0601011c0601011d0601011e0601011f06010100070101;
0x10107010102070101030701010407010105070101060701010707010118070101;
0x1190701011a0701011b0701011c0701011d0701011e0701011f07010100000201;
0x10100020102000201030002010400020105000201060002010700020118000201;
0x1190002011a0002011b0002011c0002011d0002011e0002011f00020100010201;
0x10101020102010201030102010401020105010201060102010701020118010201;
0x1190102011a0102011b0102011c0102011d0102011e0102011f01020100020201;
0x10102020102020201030202010402020105020201060202010702020118020201;
0x1190202011a0202011b0202011c0202011d0202011e0202011f02020100030201;
0x10103020102030201030302010403020105030201060302010703020118030201;
0x1190302011a0302011b0302011c0302011d0302011e0302011f03020100040201;
0x10104020102040201030402010404020105040201060402010704020118040201;
0x1190402011a0402011b0402011c0402011d0402011e0402011f04020100050201;
0x10105020102050201030502010405020105050201060502010705020118050201;
0x1190502011a0502011b0502011c0502011d0502011e0502011f05020100060201;
0x10106020102060201030602010406020105060201060602010706020118060201;
0x1190602011a0602011b0602011c0602011d0602011e0602011f06020100070201;
0x10107020102070201030702010407020105070201060702010707020118070201;
0x1190702011a0702011b0702011c0702011d0702011e0702011f07020100000301;
0x10100030102000301030003010400030105000301060003010700030118000301;
0x1190003011a0003011b0003011c0003011d0003011e0003011f00030100010301;
0x10101030102010301030103010401030105010301060103010701030118010301;
0x1190103011a0103011b0103011c0103011d0103011e0103011f01030100020301;
0x10102030102020301030203010402030105020301060203010702030118020301;
0x1190203011a0203011b0203011c0203011d0203011e0203011f02030100030301;
0x10103030102030301030303010403030105030301060303010703030118030301;
0x1190303011a0303011b0303011c0303011d0303011e0303011f03030100040301;
0x10104030102040301030403010404030105040301060403010704030118040301;
0x1190403011a0403011b0403011c0403011d0403011e0403011f04030100050301;
0x10105030102050301030503010405030105050301060503010705030118050301;
0x1190503011a0503011b0503011c0503011d0503011e0503011f05030100060301;
0x10106030102060301030603010406030105060301060603010706030118060301;
0x1190603011a0603011b0603011c0603011d0603011e0603011f06030100070301;
0x10107030102070301030703010407030105070301060703010707030118070301;
0x1190703011a0703011b0703011c0703011d0703011e0703011f07030100000401;
0x10100040102000401030004010400040105000401060004010700040118000401;
0x1190004011a0004011b0004011c0004011d0004011e0004011f00040100010401;
0x10101040102010401030104010401040105010401060104010701040118010401;
0x1190104011a0104011b0104011c0104011d0104011e0104011f01040100020401;
0x10102040102020401030204010402040105020401060204010702040118020401;
0x1190204011a0204011b0204011c0204011d0204011e0204011f02040100030401;
0x10103040102030401030304010403040105030401060304010703040118030401;
0x1190304011a0304011b0304011c0304011d0304011e0304011f03040100040401;
0x10104040102040401030404010404040105040401060404010704040118040401;
0x1190404011a0404011b0404011c0404011d0404011e0404011f04040100050401;
0x10105040102050401030504010405040105050401060504010705040118050401;
0x1190504011a0504011b0504011c0504011d0504011e0504011f05040100060401;
0x10106040102060401030604010406040105060401060604010706040118060401;
0x1190604011a0604011b0604011c0604011d0604011e0604011f06040100070401;
0x10107040102070401030704010407040105070401060704010707040118070401;
0x1190704011a0704011b0704011c0704011d0704011e0704011f07040100000501;
0x10100050102000501030005010400050105000501060005010700050118000501;
0x1190005011a0005011b0005011c0005011d0005011e0005011f00050100010501;
0x10101050102010501030105010401050105010501060105010701050118010501;
0x1190105011a0105011b0105011c0105011d0105011e0105011f01050100020501;
0x10102050102020501030205010402050105020501060205010702050118020501;
0x1190205011a0205011b0205011c0205011d0205011e0205011f02050100030501;
0x10103050102030501030305010403050105030501060305010703050118030501;
0x1190305011a0305011b0305011c0305011d0305011e0305011f03050100040501;
0x10104050102040501030405010404050105040501060405010704050118040501;
0x1190405011a0405011b0405011c0405011d0405011e0405011f04050100050501;
0x10105050102050501030505010405050105050501060505010705050118050501;
0x1190505011a0505011b0505011c0505011d0505011e0505011f05050100060501;
0x10106050102060501030605010406050105060501060605010706050118060501;
0x1190605011a0605011b0605011c0605011d0605011e0605011f06050100070501;
0x10107050102070501030705010407050105070501060705010707050118070501;
0x1190705011a0705011b0705011c0705011d0705011e0705011f07050100000601;
0x10100060102000601030006010400060105000601060006010700060118000601;
0x1190006011a0006011b0006011c0006011d0006011e0006011f00060100010601;
0x10101060102010601030106010401060105010601060106010701060118010601;
0x1190106011a0106011b0106011c0106011d0106011e0106011f01060100020601;
0x10102060102020601030206010402060105020601060206010702060118020601;
0x1190206011a0206011b0206011c0206011d0206011e0206011f02060100030601;
0x10103060102030601030306010403060105030601060306010703060118030601;
0x1190306011a0306011b0306011c0306011d0306011e0306011f03060100040601;
0x10104060102040601030406010404060105040601060406010704060118040601;
0x1190406011a0406011b0406011c0406011d0406011e0406011f04060100050601;
0x10105060102050601030506010405060105050601060506010705060118050601;
0x1190506011a0506011b0506011c0506011d0506011e0506011f05060100060601;
0x10106060102060601030606010406060105060601060606010706060118060601;
0x1190606011a0606011b0606011c0606011d0606011e0606011f06060100070601;
0x10107060102070601030706010407060105070601060706010707060118070601;
0x1190706011a0706011b0706011c0706011d0706011e0706011f07060100000701;
0x10100070102000701030007010400070105000701060007010700070118000701;
0x1190007011a0007011b0007011c0007011d0007011e0007011f00070100010701;
0x10101070102010701030107010401070105010701060107010701070118010701;
0x1190107011a0107011b0107011c0107011d0107011e0107011f01070100020701;
0x10102070102020701030207010402070105020701060207010702070118020701;
0x1190207011a0207011b0207011c0207011d0207011e0207011f02070100030701;
0x10103070102030701030307010403070105030701060307010703070118030701;
0x1190307011a0307011b0307011c0307011d0307011e0307011f03070100040701;
0x10104070102040701030407010404070105040701060407010704070118040701;
0x1190407011a0407011b0407011c0407011d0407011e0407011f04070100050701;
0x10105070102050701030507010405070105050701060507010705070118050701;
0x1190507011a0507011b0507011c0507011d0507011e0507011f05070100060701;
0x10106070102060701030607010406070105060701060607010706070118060701;
0x1190607011a0607011b0607011c0607011d0607011e0607011f06070100070701;
0x10107070102070701030707010407070105070701060707010707070118070701;
0x1190707011a0707011b0707011c0707011d0707011e0707011f07070100000801;
0x1010008010200080103000801040008010500080106000801190008011a000801;
0x11b0008011c0008011d0008011e0008011f000801000108010101080102010801;
0x103010801040108010501080106010801190108011a0108011b0108011c010801;
0x11d0108011e0108011f0108010002080101020801020208010302080104020801;
0x10502080106020801190208011a0208011b0208011c0208011d0208011e020801;
0x11f02080100030801010308010203080103030801040308010503080106030801;
0x1190308011a0308011b0308011c0308011d0308011e0308011f03080100040801;
0x1010408010204080103040801040408010504080106040801190408011a040801;
0x11b0408011c0408011d0408011e0408011f040801000508010105080102050801;
0x103050801040508010505080106050801190508011a0508011b0508011c050801;
0x11d0508011e0508011f0508010006080101060801020608010306080104060801;
0x10506080106060801190608011a0608011b0608011c0608011d0608011e060801;
0x11f06080100070801010708010207080103070801040708010507080106070801;
0x1190708011a0708011b0708011c0708011d0708011e0708011f07080100000901;
0x1010009010200090103000901040009010500090106000901190009011a000901;
0x11b0009011c0009011d0009011e0009011f000901000109010101090102010901;
0x103010901040109010501090106010901190109011a0109011b0109011c010901;
0x11d0109011e0109011f0109010002090101020901020209010302090104020901;
0x10502090106020901190209011a0209011b0209011c0209011d0209011e020901;
0x11f02090100030901010309010203090103030901040309010503090106030901;
0x1190309011a0309011b0309011c0309011d0309011e0309011f03090100040901;
0x1010409010204090103040901040409010504090106040901190409011a040901;
0x11b0409011c0409011d0409011e0409011f040901000509010105090102050901;
0x103050901040509010505090106050901190509011a0509011b0509011c050901;
0x11d0509011e0509011f0509010006090101060901020609010306090104060901;
0x10506090106060901190609011a0609011b0609011c0609011d0609011e060901;
0x11f06090100070901010709010207090103070901040709010507090106070901;
0x1190709011a0709011b0709011c0709011d0709011e0709011f07090100000a01;
0x101000a0102000a0103000a0104000a0105000a0106000a0119000a011a000a01;
0x11b000a011c000a011d000a011e000a011f000a0100010a0101010a0102010a01;
0x103010a0104010a0105010a0106010a0119010a011a010a011b010a011c010a01;
0x11d010a011e010a011f010a0100020a0101020a0102020a0103020a0104020a01;
0x105020a0106020a0119020a011a020a011b020a011c020a011d020a011e020a01;
0x11f020a0100030a0101030a0102030a0103030a0104030a0105030a0106030a01;
0x119030a011a030a011b030a011c030a011d030a011e030a011f030a0100040a01;
0x101040a0102040a0103040a0104040a0105040a0106040a0119040a011a040a01;
0x11b040a011c040a011d040a011e040a011f040a0100050a0101050a0102050a01;
0x103050a0104050a0105050a0106050a0119050a011a050a011b050a011c050a01;
0x11d050a011e050a011f050a0100060a0101060a0102060a0103060a0104060a01;
0x105060a0106060a0119060a011a060a011b060a011c060a011d060a011e060a01;
0x11f060a0100070a0101070a0102070a0103070a0104070a0105070a0106070a01;
0x119070a011a070a011b070a011c070a011d070a011e070a011f070a0100000b01;
0x101000b0102000b0103000b0104000b0105000b0106000b0119000b011a000b01;
0x11b000b011c000b011d000b011e000b011f000b0100010b0101010b0102010b01;
0x103010b0104010b0105010b0106010b0119010b011a010b011b010b011c010b01;
0x11d010b011e010b011f010b0100020b0101020b0102020b0103020b0104020b01;
0x105020b0106020b0119020b011a020b011b020b011c020b011d020b011e020b01;
0x11f020b0100030b0101030b0102030b0103030b0104030b0105030b0106030b01;
0x119030b011a030b011b030b011c030b011d030b011e030b011f030b0100040b01;
0x101040b0102040b0103040b0104040b0105040b0106040b0119040b011a040b01;
0x11b040b011c040b011d040b011e040b011f040b0100050b0101050b0102050b01;
0x103050b0104050b0105050b0106050b0119050b011a050b011b050b011c050b01;
0x11d050b011e050b011f050b0100060b0101060b0102060b0103060b0104060b01;
0x105060b0106060b0119060b011a060b011b060b011c060b011d060b011e060b01;
0x11f060b0100070b0101070b0102070b0103070b0104070b0105070b0106070b01;
0x119070b011a070b011b070b011c070b011d070b011e070b011f070b0100000c01;
0x101000c0102000c0103000c0104000c0105000c0106000c0119000c011a000c01;
0x11b000c011c000c011d000c011e000c011f000c0100010c0101010c0102010c01;
0x103010c0104010c0105010c0106010c0119010c011a010c011b010c011c010c01;
0x11d010c011e010c011f010c0100020c0101020c0102020c0103020c0104020c01;
0x105020c0106020c0119020c011a020c011b020c011c020c011d020c011e020c01;
0x11f020c0100030c0101030c0102030c0103030c0104030c0105030c0106030c01;
0x119030c011a030c011b030c011c030c011d030c011e030c011f030c0100040c01;
0x101040c0102040c0103040c0104040c0105040c0106040c0119040c011a040c01;
0x11b040c011c040c011d040c011e040c011f040c0100050c0101050c0102050c01;
0x103050c0104050c0105050c0106050c0119050c011a050c011b050c011c050c01;
0x11d050c011e050c011f050c0100060c0101060c0102060c0103060c0104060c01;
0x105060c0106060c0119060c011a060c011b060c011c060c011d060c011e060c01;
0x11f060c0100070c0101070c0102070c0103070c0104070c0105070c0106070c01;
0x119070c011a070c011b070c011c070c011d070c011e070c011f070c0100000d01;
0x101000d0102000d0103000d0104000d0105000d0106000d0119000d011a000d01;
0x11b000d011c000d011d000d011e000d011f000d0100010d0101010d0102010d01;
0x103010d0104010d0105010d0106010d0119010d011a010d011b010d011c010d01;
0x11d010d011e010d011f010d0100020d0101020d0102020d0103020d0104020d01;
0x105020d0106020d0119020d011a020d011b020d011c020d011d020d011e020d01;
0x11f020d0100030d0101030d0102030d0103030d0104030d0105030d0106030d01;
0x119030d011a030d011b030d011c030d011d030d011e030d011f030d0100040d01;
0x101040d0102040d0103040d0104040d0105040d0106040d0119040d011a040d01;
0x11b040d011c040d011d040d011e040d011f040d0100050d0101050d0102050d01;
0x103050d0104050d0105050d0106050d0119050d011a050d011b050d011c050d01;
0x11d050d011e050d011f050d0100060d0101060d0102060d0103060d0104060d01;
0x105060d0106060d0119060d011a060d011b060d011c060d011d060d011e060d01;
0x11f060d0100070d0101070d0102070d0103070d0104070d0105070d0106070d01;
0x119070d011a070d011b070d011c070d011d070d011e070d011f070d0100000e01;
0x101000e0102000e0103000e0104000e0105000e0106000e0119000e011a000e01;
0x11b000e011c000e011d000e011e000e011f000e0100010e0101010e0102010e01;
0x103010e0104010e0105010e0106010e0119010e011a010e011b010e011c010e01;
0x11d010e011e010e011f010e0100020e0101020e0102020e0103020e0104020e01;
0x105020e0106020e0119020e011a020e011b020e011c020e011d020e011e020e01;
0x11f020e0100030e0101030e0102030e0103030e0104030e0105030e0106030e01;
0x119030e011a030e011b030e011c030e011d030e011e030e011f030e0100040e01;
0x101040e0102040e0103040e0104040e0105040e0106040e0119040e011a040e01;
0x11b040e011c040e011d040e011e040e011f040e0100050e0101050e0102050e01;
0x103050e0104050e0105050e0106050e0119050e011a050e011b050e011c050e01;
0x11d050e011e050e011f050e0100060e0101060e0102060e0103060e0104060e01;
0x105060e0106060e0119060e011a060e011b060e011c060e011d060e011e060e01;
0x11f060e0100070e0101070e0102070e0103070e0104070e0105070e0106070e01;
0x119070e011a070e011b070e011c070e011d070e011e070e011f070e0100000f01;
0x101000f0102000f0103000f0104000f0105000f0106000f0119000f011a000f01;
0x11b000f011c000f011d000f011e000f011f000f0100010f0101010f0102010f01;
0x103010f0104010f0105010f0106010f0119010f011a010f011b010f011c010f01;
0x11d010f011e010f011f010f0100020f0101020f0102020f0103020f0104020f01;
0x105020f0106020f0119020f011a020f011b020f011c020f011d020f011e020f01;
0x11f020f0100030f0101030f0102030f0103030f0104030f0105030f0106030f01;
0x119030f011a030f011b030f011c030f011d030f011e030f011f030f0100040f01;
0x101040f0102040f0103040f0104040f0105040f0106040f0119040f011a040f01;
0x11b040f011c040f011d040f011e040f011f040f0100050f0101050f0102050f01;
0x103050f0104050f0105050f0106050f0119050f011a050f011b050f011c050f01;
0x11d050f011e050f011f050f0100060f0101060f0102060f0103060f0104060f01;
0x105060f0106060f0119060f011a060f011b060f011c060f011d060f011e060f01;
0x11f060f0100070f0101070f0102070f0103070f0104070f0105070f0106070f01;
0x119070f011a070f011b070f011c070f011d070f011e070f011f070f0100001019;
0x10100101902001019030010190400101905001019060010190700101908001019;
0x1090010190a0010190b0010190c0010190d0010190e0010190f00101910001019;
0x11100101912001019130010191400101915001019160010191700101918001019;
0x1190010191a0010191b0010191c0010191d0010191e0010191f00101900011001;
0x10101100102011001030110010401100105011001060110190701101908011019;
0x1090110190a0110190b0110190c0110190d0110190e0110190f01101910011019;
0x11101101912011019130110191401101915011019160110191701101918011019;
0x1190110191a0110191b0110191c0110191d0110191e0110191f01101900021001;
0x10102100102021001030210010402100105021001060210190702101908021019;
0x1090210190a0210190b0210190c0210190d0210190e0210190f02101910021019;
0x11102101912021019130210191402101915021019160210191702101918021019;
0x1190210191a0210191b0210191c0210191d0210191e0210191f02101900031001;
0x10103100102031001030310010403100105031001060310190703101908031019;
0x1090310190a0310190b0310190c0310190d0310190e0310190f03101910031019;
0x11103101912031019130310191403101915031019160310191703101918031019;
0x1190310191a0310191b0310191c0310191d0310191e0310191f03101900041001;
0x10104100102041001030410010404100105041001060410190704101908041019;
0x1090410190a0410190b0410190c0410190d0410190e0410190f04101910041019;
0x11104101912041019130410191404101915041019160410191704101918041019;
0x1190410191a0410191b0410191c0410191d0410191e0410191f04101900051001;
0x10105100102051001030510010405100105051001060510190705101908051019;
0x1090510190a0510190b0510190c0510190d0510190e0510190f05101910051019;
0x11105101912051019130510191405101915051019160510191705101918051019;
0x1190510191a0510191b0510191c0510191d0510191e0510191f05101900061001;
0x10106100102061001030610010406100105061001060610190706101908061019;
0x1090610190a0610190b0610190c0610190d0610190e0610190f06101910061019;
0x11106101912061019130610191406101915061019160610191706101918061019;
0x1190610191a0610191b0610191c0610191d0610191e0610191f06101900071019;
0x10107101902071019030710190407101905071019060710190707101908071019;
0x1090710190a0710190b0710190c0710190d0710190e0710190f07101910071019;
0x11107101912071019130710191407101915071019160710191707101918071019;
0x1190710191a0710191b0710191c0710191d0710191e0710191f07101900001119;
0x11f0011190001110101011101020111010301110104011101050111011a011101;
0x11b0111011c0111011d0111011e0111011f011101000211010102110102021101;
0x10302110104021101050211011a0211011b0211011c0211011d0211011e021101;
0x11f0211010003110101031101020311010303110104031101050311011a031101;
0x11b0311011c0311011d0311011e0311011f031101000411010104110102041101;
0x10304110104041101050411011a0411011b0411011c0411011d0411011e041101;
0x11f0411010005110101051101020511010305110104051101050511011a051101;
0x11b0511011c0511011d0511011e0511011f051101000611010106110102061101;
0x10306110104061101050611011a0611011b0611011c0611011d0611011e061101;
0x11f061101000711191f071119000012191f001219000112010101120102011201;
0x10301120104011201050112011a0112011b0112011c0112011d0112011e011201;
0x11f0112010002120101021201020212010302120104021201050212011a021201;
0x11b0212011c0212011d0212011e0212011f021201000312010103120102031201;
0x10303120104031201050312011a0312011b0312011c0312011d0312011e031201;
0x11f0312010004120101041201020412010304120104041201050412011a041201;
0x11b0412011c0412011d0412011e0412011f041201000512010105120102051201;
0x10305120104051201050512011a0512011b0512011c0512011d0512011e051201;
0x11f0512010006120101061201020612010306120104061201050612011a061201;
0x11b0612011c0612011d0612011e0612011f061201000712191f07121900011301;
0x101011301020113010301130104011301050113011a0113011b0113011c011301;
0x11d0113011e0113011f0113010002130101021301020213010302130104021301;
0x1050213011a0213011b0213011c0213011d0213011e0213011f02130100031301;
0x101031301020313010303130104031301050313011a0313011b0313011c031301;
0x11d0313011e0313011f0313010004130101041301020413010304130104041301;
0x1050413011a0413011b0413011c0413011d0413011e0413011f04130100051301;
0x101051301020513010305130104051301050513011a0513011b0513011c051301;
0x11d0513011e0513011f0513010006130101061301020613010306130104061301;
0x1050613011a0613011b0613011c0613011d0613011e0613011f06130100011401;
0x101011401020114010301140104011401050114011a0114011b0114011c011401;
0x11d0114011e0114011f0114010002140101021401020214010302140104021401;
0x1050214011a0214011b0214011c0214011d0214011e0214011f02140100031401;
0x101031401020314010303140104031401050314011a0314011b0314011c031401;
0x11d0314011e0314011f0314010004140101041401020414010304140104041401;
0x1050414011a0414011b0414011c0414011d0414011e0414011f04140100051401;
0x101051401020514010305140104051401050514011a0514011b0514011c051401;
0x11d0514011e0514011f0514010006140101061401020614010306140104061401;
0x1050614011a0614011b0614011c0614011d0614011e0614011f06140100011501;
0x101011501020115010301150104011501050115011a0115011b0115011c011501;
0x11d0115011e0115011f0115010002150101021501020215010302150104021501;
0x1050215011a0215011b0215011c0215011d0215011e0215011f02150100031501;
0x101031501020315010303150104031501050315011a0315011b0315011c031501;
0x11d0315011e0315011f0315010004150101041501020415010304150104041501;
0x1050415011a0415011b0415011c0415011d0415011e0415011f04150100051501;
0x101051501020515010305150104051501050515011a0515011b0515011c051501;
0x11d0515011e0515011f0515010006150101061501020615010306150104061501;
0x1050615011a0615011b0615011c0615011d0615011e0615011f06150100011601;
0x101011601020116010301160104011601050116011a0116011b0116011c011601;
0x11d0116011e0116011f0116010002160101021601020216010302160104021601;
0x1050216011a0216011b0216011c0216011d0216011e0216011f02160100031601;
0x101031601020316010303160104031601050316011a0316011b0316011c031601;
0x11d0316011e0316011f0316010004160101041601020416010304160104041601;
0x1050416011a0416011b0416011c0416011d0416011e0416011f04160100051601;
0x101051601020516010305160104051601050516011a0516011b0516011c051601;
0x11d0516011e0516011f0516010006160101061601020616010306160104061601;
0x1050616011a0616011b0616011c0616011d0616011e0616011f06160100011701;
0x101011701020117010301170104011701050117011a0117011b0117011c011701;
0x11d0117011e0117011f0117010002170101021701020217010302170104021701;
0x1050217011a0217011b0217011c0217011d0217011e0217011f02170100031701;
0x101031701020317010303170104031701050317011a0317011b0317011c031701;
0x11d0317011e0317011f0317010004170101041701020417010304170104041701;
0x1050417011a0417011b0417011c0417011d0417011e0417011f04170100051701;
0x101051701020517010305170104051701050517011a0517011b0517011c051701;
0x11d0517011e0517011f0517010006170101061701020617010306170104061701;
0x1050617011a0617011b0617011c0617011d0617011e0617011f06170100021801;
0x1010218010202180103021801040218011b0218011c0218011d0218011e021801;
0x11f02180100031801010318010203180103031801040318011b0318011c031801;
0x11d0318011e0318011f0318010004180101041801020418010304180104041801;
0x11b0418011c0418011d0418011e0418011f041801000518010105180102051801;
0x103051801040518011b0518011c0518011d0518011e0518011f05180100021901;
0x1010219010202190103021901040219011b0219011c0219011d0219011e021901;
0x11f02190100031901010319010203190103031901040319011b0319011c031901;
0x11d0319011e0319011f0319010004190101041901020419010304190104041901;
0x11b0419011c0419011d0419011e0419011f041901000519010105190102051901;
0x103051901040519011b0519011c0519011d0519011e0519011f05190100021a01;
0x101021a0102021a0103021a0104021a011b021a011c021a011d021a011e021a01;
0x11f021a0100031a0101031a0102031a0103031a0104031a011b031a011c031a01;
0x11d031a011e031a011f031a0100041a0101041a0102041a0103041a0104041a01;
0x11b041a011c041a011d041a011e041a011f041a0100051a0101051a0102051a01;
0x103051a0104051a011b051a011c051a011d051a011e051a011f051a0100021b01;
0x101021b0102021b0103021b0104021b011b021b011c021b011d021b011e021b01;
0x11f021b0100031b0101031b0102031b0103031b0104031b011b031b011c031b01;
0x11d031b011e031b011f031b0100041b0101041b0102041b0103041b0104041b01;
0x11b041b011c041b011d041b011e041b011f041b0100051b0101051b0102051b01;
0x103051b0104051b011b051b011c051b011d051b011e051b011f051b0100021c01;
0x101021c0102021c0103021c0104021c011b021c011c021c011d021c011e021c01;
0x11f021c0100031c0101031c0102031c0103031c0104031c011b031c011c031c01;
0x11d031c011e031c011f031c0100041c0101041c0102041c0103041c0104041c01;
0x11b041c011c041c011d041c011e041c011f041c0100051c0101051c0102051c01;
0x103051c0104051c011b051c011c051c011d051c011e051c011f051c0100021d01;
0x101021d0102021d0103021d0104021d011b021d011c021d011d021d011e021d01;
0x11f021d0100031d0101031d0102031d0103031d0104031d011b031d011c031d01;
0x11d031d011e031d011f031d0100041d0101041d0102041d0103041d0104041d01;
0x11b041d011c041d011d041d011e041d011f041d0100051d0101051d0102051d01;
0x103051d0104051d011b051d011c051d011d051d011e051d011f051d0100021e01;
0x101021e0102021e0103021e0104021e011b021e011c021e011d021e011e021e01;
0x11f021e0100031e0101031e0102031e0103031e0104031e011b031e011c031e01;
0x11d031e011e031e011f031e0100041e0101041e0102041e0103041e0104041e01;
0x11b041e011c041e011d041e011e041e011f041e0100051e0101051e0102051e01;
0x103051e0104051e011b051e011c051e011d051e011e051e011f051e0100021f01;
0x101021f0102021f0103021f0104021f011b021f011c021f011d021f011e021f01;
0x11f021f0100031f0101031f0102031f0103031f0104031f011b031f011c031f01;
0x11d031f011e031f011f031f0100041f0101041f0102041f0103041f0104041f01;
0x11b041f011c041f011d041f011e041f011f041f0100051f0101051f0102051f01;
0x103051f0104051f011b051f011c051f011d051f011e051f011f051f0152474241;
0x1000400000000000000000000fbfea0fffbfea0fffbfea0fffbfea0fffbfea0ff;
0x1fbfea0fffbfea0fffbfea0fffbfea0fffbfea0fffbfea0fffbfea0fffbfea0ff;
0x1fbfea0fffbfea0fffbfea0fffbfea0fffbfea0fffbfea0fffbfea0fffbfea0ff;
0x1fbfea0fffbfea0fffbfea0ffb6ba4affb6ba4affb6ba4affb6ba4affb6ba4aff;
0x1b6ba4affb6ba4affb6ba4affb6ba4affb6ba4affb6ba4affb6ba4affb6ba4aff;
0x1b6ba4affb6ba4affb6ba4affb6ba4affb6ba4affb6ba4affb6ba4affb6ba4aff;
0x1b6ba4affb6ba4affb6ba4affb6ba4affb6ba4affb6ba4affb6ba4affb6ba4aff;
0x1b6ba4affb6ba4affb6ba4affb6ba4affb6ba4affb6ba4affb6ba4affb6ba4aff;
0x1b6ba4affb6ba4affb6ba4affb6ba4affb6ba4affb6ba4affb6ba4affb6ba4aff;
0x1b6ba4affb6ba4affb6ba4affb6ba4affb6ba4affb6ba4affb6ba4affb6ba4aff;
0x1fbfea0fffbfea0fffbfea0fffbfea0fffbfea0fffbfea0fffbfea0fffbfea0ff;
0x1fbfea0fffbfea0fffbfea0fffbfea0fffbfea0fffbfea0fffbfea0fffbfea0ff;
0x1fbfea0fffbfea0fffbfea0fffbfea0fffbfea0fffbfea0fffbfea0fffbfea0ff;
0x1fbfea0fffbfea0fffbfea0fffbfea0fffbfea0fffbfea0fffbfea0fffbfea0ff;
0x1fbfea0fffbfea0fffbfea0fffbfea0fffbfea0fffbfea0fffbfea0fffbfea0ff;
0x1fbfea0fffbfea0fffbfea0fffbfea0fffbfea0fffbfea0fffbfea0fffbfea0ff;
0x1fbfea0fffbfea0fffbfea0fffbfea0fffbfea0fffbfea0fffbfea0fffbfea0ff;
0x1fbfea0fffbfea0fffbfea0fffbfea0fffbfea0fffbfea0fffbfea0fffbfea0ff;
0x1fbfea0fffbfea0fffbfea0fffbfea0fffbfea0fffbfea0fffbfea0fffbfea0ff;
0x1fbfea0fffbfea0fffbfea0fffbfea0fffbfea0fffbfea0fffbfea0fffbfea0ff;
0x1fbfea0fffbfea0fffbfea0fffbfea0fffbfea0fffbfea0fffbfea0fffbfea0ff;
0x1fbfea0fffbfea0fffbfea0fffbfea0fffbfea0fffbfea0fffbfea0fffbfea0ff;
0x1fbfea0fffbfea0fffbfea0fffbfea0fffbfea0fffbfea0fffbfea0fffbfea0ff;
0x1fbfea0fffbfea0fffbfea0fffbfea0fffbfea0fffbfea0fffbfea0fffbfea0ff;
0x1fbfea0fffbfea0fffbfea0fffbfea0fffbfea0fffbfea0fffbfea0fffbfea0ff;
0x1fbfea0ff00000000000000000000000000000000000000000000000000000000;
0x10000000000000000000000000000000000000000000000000000000000000000;
0x10000000000000000000000000000000000000000000000000000000000000000;
0x10000000000000000000000000000000000000000000000000000000000000000;
0x10000000000000000000000000000000000000000000000000000000000000000;
0x10000000000000000000000000000000000000000000000000000000000000000;
0x10000000000000000000000000000000000000000000000000000000000000000;
0x10000000000000000].
(** redeclipse/prefabs/egypt/wide_bridge_segment3b.vox (2248 bytes) *)
Definition vox_egypt_wide_bridge_segment3b : list Z := [
0x1564f5820960000004d41494e00000000b408000053495a450c00000000000000;
0x120000000080000000300000058595a4984040000000000002001000000000001;
0x10100000102000001030000010400000105000001060000010700000108000001;
0x1090000010a0000010b0000010c0000010d0000010e0000010f00000110000001;
0x11100000112000001130000011400000115000001160000011700000118000001;
0x1190000011a0000011b0000011c0000011d0000011e0000011f00000100010001;
0x10101000102010001030100010401000105010001060100010701000108010001;
0x1090100010a0100010b0100010c0100010d0100010e0100010f01000110010001;
0x11101000112010001130100011401000115010001160100011701000118010001;
0x1190100011a0100011b0100011c0100011d0100011e0100011f01000100020001;
0x10102000102020001030200010402000105020001060200010702000108020001;
0x1090200010a0200010b0200010c0200010d0200010e0200010f02000110020001;
0x11102000112020001130200011402000115020001160200011702000118020001;
0x1190200011a0200011b0200011c0200011d0200011e0200011f02000100030001;
0x10103000102030001030300010403000105030001060300010703000108030001;
0x1090300010a0300010b0300010c0300010d0300010e0300010f03000110030001;
0x11103000112030001130300011403000115030001160300011703000118030001;
0x1190300011a0300011b0300011c0300011d0300011e0300011f03000100040001;
0x10104000102040001030400010404000105040001060400010704000108040001;
0x1090400010a0400010b0400010c0400010d0400010e0400010f04000110040001;
0x11104000112040001130400011404000115040001160400011704000118040001;
0x1190400011a0400011b0400011c0400011d0400011e0400011f04000100050001;
0x10105000102050001030500010405000105050001060500010705000108050001;
0x1090500010a0500010b0500010c0500010d0500010e0500010f05000110050001;
0x11105000112050001130500011405000115050001160500011705000118050001;
0x1190500011a0500011b0500011c0500011d0500011e0500011f05000100060001;
0x10106000102060001030600010406000105060001060600010706000108060001;
0x1090600010a0600010b0600010c0600010d0600010e0600010f06000110060001;
0x11106000112060001130600011406000115060001160600011706000118060001;
0x1190600011a0600011b0600011c0600011d0600011e0600011f06000100070001;
0x10107000102070001030700010407000105070001060700010707000108070001;
0x1090700010a0700010b0700010c0700010d0700010e0700010f07000110070001;
0x11107000112070001130700011407000115070001160700011707000118070001;
0x1190700011a0700011b0700011c0700011d0700011e0700011f07000100000101;
0x11f000101000101011f010101000201011f020101000301011f03010100040101;
0x11f040101000501011f050101000601011f060101000701011f07010100000201;
0x11f000201000102011f010201000202011f020201000302011f03020100040201;
0x11f040201000502011f050201000602011f060201000702011f07020152474241;
0x1000400000000000000000000b6ba4affb6ba4affb6ba4affb6ba4affb6ba4aff;
0x1b6ba4affb6ba4affb6ba4affb6ba4affb6ba4affb6ba4affb6ba4affb6ba4aff;
0x1b6ba4affb6ba4affb6ba4affb6ba4affb6ba4affb6ba4affb6ba4affb6ba4aff;
0x1b6ba4affb6ba4affb6ba4affb6ba4affb6ba4affb6ba4affb6ba4affb6ba4aff;
0x1b6ba4affb6ba4affb6ba4affb6ba4affb6ba4affb6ba4affb6ba4affb6ba4aff;
0x1b6ba4affb6ba4affb6ba4affb6ba4affb6ba4affb6ba4affb6ba4affb6ba4aff;
0x1b6ba4affb6ba4affb6ba4affb6ba4affb6ba4affb6ba4affb6ba4affb6ba4aff;
0x1b6ba4affb6ba4affb6ba4affb6ba4affb6ba4affb6ba4affb6ba4affb6ba4aff;
0x1b6ba4affb6ba4affb6ba4affb6ba4affb6ba4affb6ba4affb6ba4affb6ba4aff;
0x1b6ba4affb6ba4affb6ba4affb6ba4affb6ba4affb6ba4affb6ba4affb6ba4aff;
0x1b6ba4affb6ba4affb6ba4affb6ba4affb6ba4affb6ba4affb6ba4affb6ba4aff;
0x1b6ba4affb6ba4affb6ba4affb6ba4affb6ba4affb6ba4affb6ba4affb6ba4aff;
0x1b6ba4affb6ba4affb6ba4affb6ba4affb6ba4affb6ba4affb6ba4affb6ba4aff;
0x1b6ba4affb6ba4affb6ba4affb6ba4affb6ba4affb6ba4affb6ba4affb6ba4aff;
0x1b6ba4affb6ba4affb6ba4affb6ba4affb6ba4affb6ba4affb6ba4affb6ba4aff;
0x1b6ba4affb6ba4affb6ba4affb6ba4affb6ba4affb6ba4affb6ba4affb6ba4aff;
0x1b6ba4affb6ba4affb6ba4affb6ba4affb6ba4affb6ba4affb6ba4affb6ba4aff;
0x1b6ba4affb6ba4affb6ba4affb6ba4affb6ba4affb6ba4affb6ba4affb6ba4aff;
0x1b6ba4affb6ba4affb6ba4affb6ba4affb6ba4affb6ba4affb6ba4affb6ba4aff;
0x1b6ba4affb6ba4affb6ba4affb6ba4affb6ba4aff000000000000000000000000;
0x10000000000000000000000000000000000000000000000000000000000000000;
0x10000000000000000000000000000000000000000000000000000000000000000;
0x10000000000000000000000000000000000000000000000000000000000000000;
0x10000000000000000000000000000000000000000000000000000000000000000;
0x10000000000000000000000000000000000000000000000000000000000000000;
0x10000000000000000000000000000000000000000000000000000000000000000;
0x10000000000000000000000000000000000000000000000000000000000000000;
0x10000000000000000000000000000000000000000000000000000000000000000;
0x10000000000000000000000000000000000000000000000000000000000000000;
0x10000000000000000000000000000000000000000000000000000000000000000;
0x10000000000000000000000000000000000000000000000000000000000000000;
0x10000000000000000000000000000000000000000000000000000000000000000;
0x10000000000000000].
(** redeclipse/prefabs/original/spawn_room.vox (2136 bytes) *)
Definition vox_original_spawn_room : list Z := [
0x1564f5820960000004d41494e000000004408000053495a450c00000000000000;
0x108000000080000000800000058595a4914040000000000000401000000000001;
0x10100000102000001030000010400000105000001060000010700000100010019;
0x10101001902010019030100190401001905010019060100190701001900020019;
0x10102001902020019030200190402001905020019060200190702001900030019;
0x10103001902030019030300190403001905030019060300190703001900040019;
0x10104001902040019030400190404001905040019060400190704001900050019;
0x10105001902050019030500190405001905050019060500190705001900060019;
0x10106001902060019030600190406001905060019060600190706001900070001;
0x10107000102070001030700010407000105070001060700010707000100000101;
0x1010001010200010103000101040001010500010106000101070001010001012f;
0x10002012f0003012f0004012f0005012f0006012f000701010107010102070101;
0x10307010104070101050701010607010107070101000002010100020102000201;
0x103000201040002010500020106000201070002010001022f0002022f0003022f;
0x10004022f0005022f0006022f0007020101070201020702010307020104070201;
0x10507020106070201070702010000030101000301020003010300030104000301;
0x10500030106000301070003010001032f0002032f0003032f0004032f0005032f;
0x10006032f00070301010703010207030103070301040703010507030106070301;
0x10707030100000401010004010200040103000401040004010500040106000401;
0x1070004010001042f0002042f0003042f0004042f0005042f0006042f00070401;
0x10107040102070401030704010407040105070401060704010707040100000501;
0x1010005010200050103000501040005010500050106000501070005010001052f;
0x10002052f0003052f0004052f0005052f0006052f000705010107050102070501;
0x10307050104070501050705010607050107070501000006010100060102000601;
0x103000601040006010500060106000601070006010001062f0002062f0003062f;
0x10004062f0005062f0006062f0007060101070601020706010307060104070601;
0x10507060106070601070706010000070101000701020007010300070104000701;
0x10500070106000701070007010001071901010719020107190301071904010719;
0x10501071906010719070107190002071901020719020207190302071904020719;
0x10502071906020719070207190003071901030719020307190303071904030719;
0x10503071906030719070307190004071901040719020407190304071904040719;
0x10504071906040719070407190005071901050719020507190305071904050719;
0x10505071906050719070507190006071901060719020607190306071904060719;
0x10506071906060719070607190007070101070701020707010307070104070701;
0x105070701060707010707070152474241000400000000000000000000323232ff;
0x1323232ff323232ff323232ff323232ff323232ff323232ff323232ff323232ff;
0x1323232ff323232ff323232ff323232ff323232ff323232ff323232ff323232ff;
0x1323232ff323232ff323232ff323232ff323232ff323232ff323232ffffffffff;
0x1ffffffffffffffffffffffffffffffffffffffffffffffffffffffffffffffff;
0x1ffffffffffffffffffffffffffffffffffffffffffffffffffffffffffffffff;
0x1ffffffffffffffffffffffffffffffffffffffffffff00ffffff00ffffff00ff;
0x1ffff00ffffff00ffffff00ffffff00ffffff00ffffff00ffffff00ffffff00ff;
0x1ffff00ffffff00ffffff00ffffff00ffffff00ffffffffffffffffffffffffff;
0x1ffffffffffffffffffffffffffffffffffffffffffffffffffffffffffffffff;
0x1ffffffffffffffffffffffffffffffffffffffffffffffffffffffffffffffff;
0x1ffffffffffffffffffffffffffffffffffffffffffff00ffffff00ffffff00ff;
0x1323232ff323232ff323232ff323232ff323232ff323232ff323232ff323232ff;
0x1323232ff323232ff323232ff323232ff323232ff323232ff323232ff323232ff;
0x1323232ff323232ff323232ff323232ff323232ff323232ff323232ff323232ff;
0x1323232ff323232ff323232ff323232ff323232ff323232ff323232ff323232ff;
0x1323232ff323232ff323232ff323232ff323232ff323232ff323232ff323232ff;
0x1323232ff323232ff323232ff323232ff323232ff323232ff323232ff323232ff;
0x1323232ff323232ff323232ff323232ff323232ff323232ff0000000000000000;
0x10000000000000000000000000000000000000000000000000000000000000000;
0x10000000000000000000000000000000000000000000000000000000000000000;
0x10000000000000000000000000000000000000000000000000000000000000000;
0x10000000000000000000000000000000000000000000000000000000000000000;
0x10000000000000000000000000000000000000000000000000000000000000000;
0x10000000000000000000000000000000000000000000000000000000000000000;
0x10000000000000000000000000000000000000000000000000000000000000000;
0x10000000000000000000000000000000000000000000000000000000000000000;
0x10000000000000000000000000000000000000000000000000000000000000000;
0x10000000000000000000000000000000000000000000000000000000000000000;
0x10000000000000000000000000000000000000000000000000000000000000000;
0x10000000000000000000000000000000000000000000000000000000000000000;
0x10000000000000000000000000000000000000000000000000000000000000000;
0x1000000000000000000000000000000000000000000000000].
(** redeclipse/prefabs/spacestation/station_endcap.vox (1720 bytes) *)
Definition vox_spacestation_station_endcap : list Z := [
0x1564f5820960000004d41494e00000000a406000053495a450c00000000000000;
0x108000000080000000800000058595a4974020000000000009c00000000020001;
0x10102000102020001030200010402000105020001000300010103000102030001;
0x10303000104030001050300010004000101040001020400010304000104040001;
0x10504000100050001010500010205000103050001040500010505000100010101;
0x10101010102010101030101010401010105010101060101010602010106030101;
0x10604010106050101000601010106010102060101030601010406010105060101;
0x10606010100000201010002010200020103000201040002010500020106010201;
0x10702020107030201070402010705020106060201000702010107020102070201;
0x10307020104070201050702010000030101000301020003010300030104000301;
0x10500030106010301070203010703030107040301070503010606030100070301;
0x10107030102070301030703010407030105070301000004010100040102000401;
0x10300040104000401050004010601040107020401070304010704040107050401;
0x10606040100070401010704010207040103070401040704010507040100000501;
0x10100050102000501030005010400050105000501060105010702050107030501;
0x10704050107050501060605010007050101070501020705010307050104070501;
0x10507050100010601010106010201060103010601040106010501060106010601;
0x10602060106030601060406010605060100060601010606010206060103060601;
0x10406060105060601060606010002070101020701020207010302070104020701;
0x10502070100030701010307010203070103030701040307010503070100040701;
0x10104070102040701030407010404070105040701000507010105070102050701;
0x103050701040507010505070152474241000400000000000000000000f0f0f0ff;
0x1f0f0f0fff0f0f0fff0f0f0fff0f0f0fff0f0f0fff0f0f0fff0f0f0fff0f0f0ff;
0x1f0f0f0fff0f0f0fff0f0f0fff0f0f0fff0f0f0fff0f0f0fff0f0f0fff0f0f0ff;
0x1f0f0f0fff0f0f0fff0f0f0fff0f0f0fff0f0f0fff0f0f0fff0f0f0fff0f0f0ff;
0x1f0f0f0fff0f0f0fff0f0f0fff0f0f0fff0f0f0fff0f0f0fff0f0f0fff0f0f0ff;
0x1f0f0f0fff0f0f0fff0f0f0fff0f0f0fff0f0f0fff0f0f0fff0f0f0fff0f0f0ff;
0x1f0f0f0fff0f0f0fff0f0f0fff0f0f0fff0f0f0fff0f0f0fff0f0f0fff0f0f0ff;
0x1f0f0f0fff0f0f0fff0f0f0fff0f0f0fff0f0f0fff0f0f0fff0f0f0fff0f0f0ff;
0x1f0f0f0fff0f0f0fff0f0f0fff0f0f0fff0f0f0fff0f0f0fff0f0f0fff0f0f0ff;
0x1f0f0f0fff0f0f0fff0f0f0fff0f0f0fff0f0f0fff0f0f0fff0f0f0fff0f0f0ff;
0x1f0f0f0fff0f0f0fff0f0f0fff0f0f0fff0f0f0fff0f0f0fff0f0f0fff0f0f0ff;
0x1f0f0f0fff0f0f0fff0f0f0fff0f0f0fff0f0f0fff0f0f0fff0f0f0fff0f0f0ff;
0x1f0f0f0fff0f0f0fff0f0f0fff0f0f0fff0f0f0fff0f0f0fff0f0f0fff0f0f0ff;
0x1f0f0f0fff0f0f0fff0f0f0fff0f0f0fff0f0f0fff0f0f0fff0f0f0fff0f0f0ff;
0x1f0f0f0fff0f0f0fff0f0f0fff0f0f0fff0f0f0fff0f0f0fff0f0f0fff0f0f0ff;
0x1f0f0f0fff0f0f0fff0f0f0fff0f0f0fff0f0f0fff0f0f0ff0000000000000000;
0x10000000000000000000000000000000000000000000000000000000000000000;
0x10000000000000000000000000000000000000000000000000000000000000000;
0x10000000000000000000000000000000000000000000000000000000000000000;
0x10000000000000000000000000000000000000000000000000000000000000000;
0x10000000000000000000000000000000000000000000000000000000000000000;
0x10000000000000000000000000000000000000000000000000000000000000000;
0x10000000000000000000000000000000000000000000000000000000000000000;
0x10000000000000000000000000000000000000000000000000000000000000000;
0x10000000000000000000000000000000000000000000000000000000000000000;
0x10000000000000000000000000000000000000000000000000000000000000000;
0x10000000000000000000000000000000000000000000000000000000000000000;
0x10000000000000000000000000000000000000000000000000000000000000000;
0x10000000000000000000000000000000000000000000000000000000000000000;
0x10000000000000000000000000000000000000000000000000000000000000000;
0x10000000000000000000000000000000000000000000000000000000000000000;
0x10000000000000000000000000000000000000000000000000000000000000000;
0x1000000000000000000000000000000000000000000000000].
(** redeclipse/prefabs/spacestation/station_flagroom.vox (14952 bytes) *)
Definition vox_spacestation_station_flagroom : list Z := [
0x1564f5820960000004d41494e00000000543a000053495a450c00000000000000;
0x128000000280000000800000058595a492436000000000000880d000012000001;
0x11300000114000001150000010c0100010d0100010e0100010f01000110010001;
0x11101000112010001130100011401000115010001160100011701000118010001;
0x1190100011a0100011b0100010a0200010b0200010c0200010d0200010e020001;
0x10f02000110020001110200011202000113020001140200011502000116020001;
0x11702000118020001190200011a0200011b0200011c0200011d02000109030001;
0x10a0300010b0300010c0300010d0300010e0300010f0300011003000111030001;
0x11203000113030001140300011503000116030001170300011803000119030001;
0x11a0300011b0300011c0300011d0300011e030001070400010804000109040001;
0x10a0400010b0400010c0400010d0400010e0400010f0400011004000111040001;
0x11204000113040001140400011504000116040001170400011804000119040001;
0x11a0400011b0400011c0400011d0400011e0400011f0400012004000106050001;
0x10705000108050001090500010a0500010b0500010c0500010d0500010e050001;
0x10f05000110050001110500011205000113050001140500011505000116050001;
0x11705000118050001190500011a0500011b0500011c0500011d0500011e050001;
0x11f05000120050001210500010506000106060001070600010806000109060001;
0x10a0600010b0600010c0600010d0600010e0600010f0600011006000111060001;
0x11206000113060001140600011506000116060001170600011806000119060001;
0x11a0600011b0600011c0600011d0600011e0600011f0600012006000121060001;
0x1220600010407000105070001060700010707000108070001090700010a070001;
0x10b0700010c0700010d0700010e0700010f070001100700011107000112070001;
0x1130700011407000115070001160700011707000118070001190700011a070001;
0x11b0700011c0700011d0700011e0700011f070001200700012107000122070001;
0x1230700010408000105080001060800010708000108080001090800010a080001;
0x10b0800010c0800010d0800010e0800010f080001100800011108000112080001;
0x1130800011408000115080001160800011708000118080001190800011a080001;
0x11b0800011c0800011d0800011e0800011f080001200800012108000122080001;
0x12308000103090001040900010509000106090001070900010809000109090001;
0x10a0900010b0900010c0900010d0900010e0900010f0900011009000111090001;
0x11209000113090001140900011509000116090001170900011809000119090001;
0x11a0900011b0900011c0900011d0900011e0900011f0900012009000121090001;
0x1220900012309000124090001020a0001030a0001040a0001050a0001060a0001;
0x1070a0001080a0001090a00010a0a00010b0a00010c0a00010d0a00010e0a0001;
0x10f0a0001100a0001110a0001120a0001130a0001140a0001150a0001160a0001;
0x1170a0001180a0001190a00011a0a00011b0a00011c0a00011d0a00011e0a0001;
0x11f0a0001200a0001210a0001220a0001230a0001240a0001250a0001020b0001;
0x1030b0001040b0001050b0001060b0001070b0001080b0001090b00010a0b0001;
0x10b0b00010c0b00010d0b00010e0b00010f0b0001100b0001110b0001120b0001;
0x1130b0001140b0001150b0001160b0001170b0001180b0001190b00011a0b0001;
0x11b0b00011c0b00011d0b00011e0b00011f0b0001200b0001210b0001220b0001;
0x1230b0001240b0001250b0001010c0001020c0001030c0001040c0001050c0001;
0x1060c0001070c0001080c0001090c00010a0c00010b0c00010c0c00010d0c0001;
0x10e0c00010f0c0001100c0001110c0018120c0018130c0018140c0018150c0018;
0x1160c0018170c0001180c0001190c00011a0c00011b0c00011c0c00011d0c0001;
0x11e0c00011f0c0001200c0001210c0001220c0001230c0001240c0001250c0001;
0x1260c0001010d0001020d0001030d0001040d0001050d0001060d0001070d0001;
0x1080d0001090d00010a0d00010b0d00010c0d00010d0d00010e0d00010f0d0018;
0x1100d0018110d0018120d0018130d0018140d0018150d0018160d0018170d0018;
0x1180d0018190d00011a0d00011b0d00011c0d00011d0d00011e0d00011f0d0001;
0x1200d0001210d0001220d0001230d0001240d0001250d0001260d0001010e0001;
0x1020e0001030e0001040e0001050e0001060e0001070e0001080e0001090e0001;
0x10a0e00010b0e00010c0e00010d0e00010e0e00180f0e0018100e0018110e0018;
0x1120e0018130e0018140e0018150e0018160e0018170e0018180e0018190e0018;
0x11a0e00011b0e00011c0e00011d0e00011e0e00011f0e0001200e0001210e0001;
0x1220e0001230e0001240e0001250e0001260e0001010f0001020f0001030f0001;
0x1040f0001050f0001060f0001070f0001080f0001090f00010a0f00010b0f0001;
0x10c0f00010d0f00180e0f00180f0f0018100f0018110f0018120f0018130f0018;
0x1140f0018150f0018160f0018170f0018180f0018190f00181a0f00181b0f0001;
0x11c0f00011d0f00011e0f00011f0f0001200f0001210f0001220f0001230f0001;
0x1240f0001250f0001260f00010110000102100001031000010410000105100001;
0x1061000010710000108100001091000010a1000010b1000010c1000010d100018;
0x10e1000180f100018101000181110001812100018131000181410001815100018;
0x1161000181710001818100018191000181a1000181b1000011c1000011d100001;
0x11e1000011f100001201000012110000122100001231000012410000125100001;
0x12610000101110001021100010311000104110001051100010611000107110001;
0x108110001091100010a1100010b1100010c1100180d1100180e1100180f110018;
0x11011001811110018121100181311001814110018151100181611001817110018;
0x118110018191100181a1100181b1100181c1100011d1100011e1100011f110001;
0x12011000121110001221100012311000124110001251100012611000100120001;
0x10112000102120001031200010412000105120001061200010712000108120001;
0x1091200010a1200010b1200010c1200180d1200180e1200180f12001810120018;
0x11112001812120018131200181412001815120018161200181712001818120018;
0x1191200181a1200181b1200181c1200011d1200011e1200011f12000120120001;
0x12112000122120001231200012412000125120001261200012712000100130001;
0x10113000102130001031300010413000105130001061300010713000108130001;
0x1091300010a1300010b1300010c1300180d1300180e1300180f13001810130018;
0x11113001812130018131300181413001815130018161300181713001818130018;
0x1191300181a1300181b1300181c1300011d1300011e1300011f13000120130001;
0x12113000122130001231300012413000125130001261300012713000100140001;
0x10114000102140001031400010414000105140001061400010714000108140001;
0x1091400010a1400010b1400010c1400180d1400180e1400180f14001810140018;
0x11114001812140018131400181414001815140018161400181714001818140018;
0x1191400181a1400181b1400181c1400011d1400011e1400011f14000120140001;
0x12114000122140001231400012414000125140001261400012714000100150001;
0x10115000102150001031500010415000105150001061500010715000108150001;
0x1091500010a1500010b1500010c1500180d1500180e1500180f15001810150018;
0x11115001812150018131500181415001815150018161500181715001818150018;
0x1191500181a1500181b1500181c1500011d1500011e1500011f15000120150001;
0x12115000122150001231500012415000125150001261500012715000101160001;
0x10216000103160001041600010516000106160001071600010816000109160001;
0x10a1600010b1600010c1600180d1600180e1600180f1600181016001811160018;
0x11216001813160018141600181516001816160018171600181816001819160018;
0x11a1600181b1600181c1600011d1600011e1600011f1600012016001821160001;
0x12216000123160001241600012516000126160001011700010217000103170001;
0x10417000105170001061700010717000108170001091700010a1700010b170001;
0x10c1700010d1700180e1700180f17001810170018111700181217001813170018;
0x11417001815170018161700181717001818170018191700181a1700181b170001;
0x11c1700011d1700011e1700011f17000120170001211700012217000123170001;
0x12417000125170001261700010118000102180001031800010418000105180001;
0x1061800010718000108180001091800010a1800010b1800010c1800010d180018;
0x10e1800180f180018101800181118001812180018131800181418001815180018;
0x1161800181718001818180018191800181a1800181b1800011c1800011d180001;
0x11e1800011f180001201800012118000122180001231800012418000125180001;
0x12618000101190001021900010319000104190001051900010619000107190001;
0x108190001091900010a1900010b1900010c1900010d1900010e1900180f190018;
0x11019001811190018121900181319001814190018151900181619001817190018;
0x118190018191900181a1900011b1900011c1900011d1900011e1900011f190001;
0x120190001211900012219000123190001241900012519000126190001011a0001;
0x1021a0001031a0001041a0001051a0001061a0001071a0001081a0001091a0001;
0x10a1a00010b1a00010c1a00010d1a00010e1a00010f1a0018101a0018111a0018;
0x1121a0018131a0018141a0018151a0018161a0018171a0018181a0018191a0001;
0x11a1a00011b1a00011c1a00011d1a00011e1a00011f1a0001201a0001211a0001;
0x1221a0001231a0001241a0001251a0001261a0001011b0001021b0001031b0001;
0x1041b0001051b0001061b0001071b0001081b0001091b00010a1b00010b1b0001;
0x10c1b00010d1b00010e1b00010f1b0001101b0001111b0018121b0018131b0018;
0x1141b0018151b0018161b0018171b0001181b0001191b00011a1b00011b1b0001;
0x11c1b00011d1b00011e1b00011f1b0001201b0001211b0001221b0001231b0001;
0x1241b0001251b0001261b0001021c0001031c0001041c0001051c0001061c0001;
0x1071c0001081c0001091c00010a1c00010b1c00010c1c00010d1c00010e1c0001;
0x10f1c0001101c0001111c0001121c0001131c0001141c0001151c0001161c0001;
0x1171c0001181c0001191c00011a1c00011b1c00011c1c00011d1c00011e1c0001;
0x11f1c0001201c0001211c0001221c0001231c0001241c0001251c0001021d0001;
0x1031d0001041d0001051d0001061d0001071d0001081d0001091d00010a1d0001;
0x10b1d00010c1d00010d1d00010e1d00010f1d0001101d0001111d0001121d0001;
0x1131d0001141d0001151d0001161d0001171d0001181d0001191d00011a1d0001;
0x11b1d00011c1d00011d1d00011e1d00011f1d0001201d0001211d0001221d0001;
0x1231d0001241d0001251d0001031e0001041e0001051e0001061e0001071e0001;
0x1081e0001091e00010a1e00010b1e00010c1e00010d1e00010e1e00010f1e0001;
0x1101e0001111e0001121e0001131e0001141e0001151e0001161e0001171e0001;
0x1181e0001191e00011a1e00011b1e00011c1e00011d1e00011e1e00011f1e0001;
0x1201e0001211e0001221e0001231e0001241e0001041f0001051f0001061f0001;
0x1071f0001081f0001091f00010a1f00010b1f00010c1f00010d1f00010e1f0001;
0x10f1f0001101f0001111f0001121f0001131f0001141f0001151f0001161f0001;
0x1171f0001181f0001191f00011a1f00011b1f00011c1f00011d1f00011e1f0001;
0x11f1f0001201f0001211f0001221f0001231f0001042000010520000106200001;
0x10720000108200001092000010a2000010b2000010c2000010d2000010e200001;
0x10f20000110200001112000011220000113200001142000011520000116200001;
0x11720000118200001192000011a2000011b2000011c2000011d2000011e200001;
0x11f20000120200001212000012220000123200001052100010621000107210001;
0x108210001092100010a2100010b2100010c2100010d2100010e2100010f210001;
0x11021000111210001122100011321000114210001152100011621000117210001;
0x118210001192100011a2100011b2100011c2100011d2100011e2100011f210001;
0x1202100012121000122210001062200010722000108220001092200010a220001;
0x10b2200010c2200010d2200010e2200010f220001102200011122000112220001;
0x1132200011422000115220001162200011722000118220001192200011a220001;
0x11b2200011c2200011d2200011e2200011f220001202200012122000107230001;
0x108230001092300010a2300010b2300010c2300010d2300010e2300010f230001;
0x11023000111230001122300011323000114230001152300011623000117230001;
0x118230001192300011a2300011b2300011c2300011d2300011e2300011f230001;
0x120230001092400010a2400010b2400010c2400010d2400010e2400010f240001;
0x11024000111240001122400011324000114240001152400011624000117240001;
0x118240001192400011a2400011b2400011c2400011d2400011e2400010a250001;
0x10b2500010c2500010d2500010e2500010f250001102500011125000112250001;
0x1132500011425000115250001162500011725000118250001192500011a250001;
0x11b2500011c2500011d2500010c2600010d2600010e2600010f26000110260001;
0x11126000112260001132600011426000115260001162600011726000118260001;
0x1192600011a2600011b2600011227000113270001142700011527000111000101;
0x1160001010b0101010c0101010d0101010e0101010f0101011001010117010101;
0x118010101190101011a0101011b0101011c010101090201010a0201010b020101;
0x11c0201011d0201011e02010108030101090301011e0301011f03010106040101;
0x107040101080401011f0401012004010121040101050501010605010121050101;
0x12205010104060101050601012206010123060101040701011007011811070118;
0x11207011813070118140701181507011816070118170701182307010103080101;
0x1040801010e0801010f0801011008010117080101180801011908010123080101;
0x12408010102090101030901010d0901180e090118190901181a09011824090101;
0x125090101020a0101250a0101010b0101020b0101250b0101260b0101010c0101;
0x1260c0101010d0101090d01181e0d0118260d0101010e0101080e0101090e0118;
0x11e0e01181f0e0101260e0101010f0101080f01011f0f0101260f010101100101;
0x107100118081001011f1001012010011826100101001101010711011820110118;
0x12711010107120118201201180713011820130118071401182014011807150118;
0x12015011800160101071601182016011827160101011701010717011808170101;
0x11f170101201701182617010101180101081801011f1801012618010101190101;
0x108190101091901181e1901181f19010126190101011a0101091a01181e1a0118;
0x1261a0101011b0101261b0101011c0101021c0101251c0101261c0101021d0101;
0x1251d0101021e0101031e01010d1e01180e1e0118191e01181a1e0118241e0101;
0x1251e0101031f0101041f01010e1f01010f1f0101101f0101171f0101181f0101;
0x1191f0101231f0101241f01010420010110200118112001181220011813200118;
0x11420011815200118162001181720011823200101042101010521010122210101;
0x12321010105220101062201012122010122220101062301010723010108230101;
0x11f230101202301012123010108240101092401011e2401011f24010109250101;
0x10a2501010b2501011c2501011d2501011e2501010b2601010c2601010d260101;
0x10e2601010f260101102601011726010118260101192601011a2601011b260101;
0x11c260101112701011627010110000201170002010b0102010c0102010d010201;
0x10e0102010f01020118010201190102011a0102011b0102011c01020109020201;
0x10a0202010b0202011c0202011d0202011e02020108030201090302011e030201;
0x11f0302010604020107040201080402011f040201200402012104020105050201;
0x10605020121050201220502010406020105060201220602012306020104070201;
0x11007021811070218120702181307021814070218150702181607021817070218;
0x12307020103080201040802010e0802010f080201100802011708020118080201;
0x119080201230802012408020102090201030902010d0902180e09021819090218;
0x11a0902182409020125090201020a0201250a0201010b0201020b0201250b0201;
0x1260b0201010c0201260c0201010d0201090d02181e0d0218260d0201010e0201;
0x1080e0201090e02181e0e02181f0e0201260e0201010f0201080f02011f0f0201;
0x1260f02010010020107100218081002011f100201201002182710020107110218;
0x12011021807120218201202180713021820130218071402182014021807150218;
0x12015021807160218201602180017020107170218081702011f17020120170218;
0x12717020101180201081802011f18020126180201011902010819020109190218;
0x11e1902181f19020126190201011a0201091a02181e1a0218261a0201011b0201;
0x1261b0201011c0201021c0201251c0201261c0201021d0201251d0201021e0201;
0x1031e02010d1e02180e1e0218191e02181a1e0218241e0201251e0201031f0201;
0x1041f02010e1f02010f1f0201101f0201171f0201181f0201191f0201231f0201;
0x1241f020104200201102002181120021812200218132002181420021815200218;
0x11620021817200218232002010421020105210201222102012321020105220201;
0x10622020121220201222202010623020107230201082302011f23020120230201;
0x12123020108240201092402011e2402011f240201092502010a2502010b250201;
0x11c2502011d2502011e2502010b2602010c2602010d2602010e2602010f260201;
0x118260201192602011a2602011b2602011c260201102702011727020110000301;
0x1170003010b0103010c0103010d0103010e0103010f0103011801030119010301;
0x11a0103011b0103011c010301090203010a0203010b0203011c0203011d020301;
0x11e02030108030301090303011e0303011f030301060403010704030108040301;
0x11f04030120040301210403010505030106050301210503012205030104060301;
0x10506030122060301230603010407030110070318110703181207031813070318;
0x1140703181507031816070318170703182307030103080301040803010e080301;
0x10f08030110080301170803011808030119080301230803012408030102090301;
0x1030903010d0903180e090318190903181a0903182409030125090301020a0301;
0x1250a0301010b0301020b0301250b0301260b0301010c0301260c0301010d0301;
0x1090d03181e0d0318260d0301010e0301080e0301090e03181e0e03181f0e0301;
0x1260e0301010f0301080f03011f0f0301260f0301001003010710031808100301;
0x11f10030120100318271003010711031820110318071203182012031807130318;
0x12013031807140318201403180715031820150318071603182016031800170301;
0x107170318081703011f170301201703182717030101180301081803011f180301;
0x1261803010119030108190301091903181e1903181f19030126190301011a0301;
0x1091a03181e1a0318261a0301011b0301261b0301011c0301021c0301251c0301;
0x1261c0301021d0301251d0301021e0301031e03010d1e03180e1e0318191e0318;
0x11a1e0318241e0301251e0301031f0301041f03010e1f03010f1f0301101f0301;
0x1171f0301181f0301191f0301231f0301241f0301042003011020031811200318;
0x11220031813200318142003181520031816200318172003182320030104210301;
0x10521030122210301232103010522030106220301212203012222030106230301;
0x107230301082303011f230301202303012123030108240301092403011e240301;
0x11f240301092503010a2503010b2503011c2503011d2503011e2503010b260301;
0x10c2603010d2603010e2603010f26030118260301192603011a2603011b260301;
0x11c260301102703011727030110000401170004010b0104010c0104010d010401;
0x10e0104010f01040118010401190104011a0104011b0104011c01040109020401;
0x10a0204010b0204011c0204011d0204011e02040108030401090304011e030401;
0x11f0304010604040107040401080404011f040401200404012104040105050401;
0x10605040121050401220504010406040105060401220604012306040104070401;
0x11007041811070418120704181307041814070418150704181607041817070418;
0x12307040103080401040804010e0804010f080401100804011708040118080401;
0x119080401230804012408040102090401030904010d0904180e09041819090418;
0x11a0904182409040125090401020a0401250a0401010b0401020b0401250b0401;
0x1260b0401010c0401260c0401010d0401090d04181e0d0418260d0401010e0401;
0x1080e0401090e04181e0e04181f0e0401260e0401010f0401080f04011f0f0401;
0x1260f04010010040107100418081004011f100401201004182710040107110418;
0x12011041807120418201204180713041820130418071404182014041807150418;
0x12015041807160418201604180017040107170418081704011f17040120170418;
0x12717040101180401081804011f18040126180401011904010819040109190418;
0x11e1904181f19040126190401011a0401091a04181e1a0418261a0401011b0401;
0x1261b0401011c0401021c0401251c0401261c0401021d0401251d0401021e0401;
0x1031e04010d1e04180e1e0418191e04181a1e0418241e0401251e0401031f0401;
0x1041f04010e1f04010f1f0401101f0401171f0401181f0401191f0401231f0401;
0x1241f040104200401102004181120041812200418132004181420041815200418;
0x11620041817200418232004010421040105210401222104012321040105220401;
0x10622040121220401222204010623040107230401082304011f23040120230401;
0x12123040108240401092404011e2404011f240401092504010a2504010b250401;
0x11c2504011d2504011e2504010b2604010c2604010d2604010e2604010f260401;
0x118260401192604011a2604011b2604011c260401102704011727040110000501;
0x1170005010b0105010c0105010d0105010e0105010f0105011801050119010501;
0x11a0105011b0105011c010501090205010a0205010b0205011c0205011d020501;
0x11e02050108030501090305011e0305011f030501060405010704050108040501;
0x11f04050120040501210405010505050106050501210505012205050104060501;
0x10506050122060501230605010407050123070501030805010408050123080501;
0x12408050102090501030905012409050125090501020a0501250a0501010b0501;
0x1020b0501250b0501260b0501010c0501260c0501010d0501260d0501010e0501;
0x1260e0501010f0501260f05010010050127100501001705012717050101180501;
0x1261805010119050126190501011a0501261a0501011b0501261b0501011c0501;
0x1021c0501251c0501261c0501021d0501251d0501021e0501031e0501241e0501;
0x1251e0501031f0501041f0501231f0501241f0501042005012320050104210501;
0x10521050122210501232105010522050106220501212205012222050106230501;
0x107230501082305011f230501202305012123050108240501092405011e240501;
0x11f240501092505010a2505010b2505011c2505011d2505011e2505010b260501;
0x10c2605010d2605010e2605010f26050118260501192605011a2605011b260501;
0x11c260501102705011727050111000601160006010b0106010c0106010d010601;
0x10e0106010f010601100106011701060118010601190106011a0106011b010601;
0x11c010601090206010a0206010b0206011c0206011d0206011e02060108030601;
0x1090306011e0306011f0306010604060107040601080406011f04060120040601;
0x12104060105050601060506012105060122050601040606010506060122060601;
0x12306060104070601230706010308060104080601230806012408060102090601;
0x1030906012409060125090601020a0601250a0601010b0601020b0601250b0601;
0x1260b0601010c0601260c0601010d0601260d0601010e0601260e0601010f0601;
0x1260f060101100601261006010011060127110601001606012716060101170601;
0x12617060101180601261806010119060126190601011a0601261a0601011b0601;
0x1261b0601011c0601021c0601251c0601261c0601021d0601251d0601021e0601;
0x1031e0601241e0601251e0601031f0601041f0601231f0601241f060104200601;
0x12320060104210601052106012221060123210601052206010622060121220601;
0x1222206010623060107230601082306011f230601202306012123060108240601;
0x1092406011e2406011f240601092506010a2506010b2506011c2506011d250601;
0x11e2506010b2606010c2606010d2606010e2606010f2606011026060117260601;
0x118260601192606011a2606011b2606011c260601112706011627060112000701;
0x11300070114000701150007011001070111010701120107011301070114010701;
0x11501070116010701170107010c0207010d0207010e0207010f02070110020701;
0x11102070112020701130207011402070115020701160207011702070118020701;
0x1190207011a0207011b0207010a0307010b0307010c0307010d0307010e030701;
0x10f03070110030701110307011203070113030701140307011503070116030701;
0x11703070118030701190307011a0307011b0307011c0307011d03070109040701;
0x10a0407010b0407010c0407010d0407010e0407010f0407011004070111040701;
0x11204070113040701140407011504070116040701170407011804070119040701;
0x11a0407011b0407011c0407011d0407011e040701070507010805070109050701;
0x10a0507010b0507010c0507010d0507010e0507010f0507011005070111050701;
0x11205070113050701140507011505070116050701170507011805070119050701;
0x11a0507011b0507011c0507011d0507011e0507011f0507012005070106060701;
0x10706070108060701090607010a0607010b0607010c0607010d0607010e060701;
0x10f06070110060701110607011206070113060701140607011506070116060701;
0x11706070118060701190607011a0607011b0607011c0607011d0607011e060701;
0x11f06070120060701210607010507070106070701070707010807070109070701;
0x10a0707010b0707010c0707010d0707010e0707010f0707011007070111070701;
0x11207070113070701140707011507070116070701170707011807070119070701;
0x11a0707011b0707011c0707011d0707011e0707011f0707012007070121070701;
0x12207070105080701060807010708070108080701090807010a0807010b080701;
0x10c0807010d0807010e0807010f08070110080701110807011208070113080701;
0x11408070115080701160807011708070118080701190807011a0807011b080701;
0x11c0807011d0807011e0807011f08070120080701210807012208070104090701;
0x105090701060907010709070108090701090907010a0907010b0907010c090701;
0x10d0907010e0907010f0907011009070111090701120907011309070114090701;
0x115090701160907011709070118090701190907011a0907011b0907011c090701;
0x11d0907011e0907011f09070120090701210907012209070123090701030a0701;
0x1040a0701050a0701060a0701070a0701080a0701090a07010a0a07010b0a0701;
0x10c0a07010d0a07010e0a07010f0a0701100a0701110a0701120a0701130a0701;
0x1140a0701150a0701160a0701170a0701180a0701190a07011a0a07011b0a0701;
0x11c0a07011d0a07011e0a07011f0a0701200a0701210a0701220a0701230a0701;
0x1240a0701030b0701040b0701050b0701060b0701070b0701080b0701090b0701;
0x10a0b07010b0b07010c0b07010d0b07010e0b07010f0b0701100b0701110b0701;
0x1120b0701130b0701140b0701150b0701160b0701170b0701180b0701190b0701;
0x11a0b07011b0b07011c0b07011d0b07011e0b07011f0b0701200b0701210b0701;
0x1220b0701230b0701240b0701020c0701030c0701040c0701050c0701060c0701;
0x1070c0701080c0701090c07010a0c07010b0c07010c0c07010d0c07010e0c0701;
0x10f0c0701100c0701110c0701120c0701130c0701140c0701150c0701160c0701;
0x1170c0701180c0701190c07011a0c07011b0c07011c0c07011d0c07011e0c0701;
0x11f0c0701200c0701210c0701220c0701230c0701240c0701250c0701020d0701;
0x1030d0701040d0701050d0701060d0701070d0701080d0701090d07010a0d0701;
0x10b0d07010c0d07010d0d07010e0d07010f0d0701100d0701110d0701120d0701;
0x1130d0701140d0701150d0701160d0701170d0701180d0701190d07011a0d0701;
0x11b0d07011c0d07011d0d07011e0d07011f0d0701200d0701210d0701220d0701;
0x1230d0701240d0701250d0701020e0701030e0701040e0701050e0701060e0701;
0x1070e0701080e0701090e07010a0e07010b0e07010c0e07010d0e07010e0e0701;
0x10f0e0701100e0701110e0701120e0701130e0701140e0701150e0701160e0701;
0x1170e0701180e0701190e07011a0e07011b0e07011c0e07011d0e07011e0e0701;
0x11f0e0701200e0701210e0701220e0701230e0701240e0701250e0701020f0701;
0x1030f0701040f0701050f0701060f0701070f0701080f0701090f07010a0f0701;
0x10b0f07010c0f07010d0f07010e0f07010f0f0701100f0701110f0701120f0701;
0x1130f0701140f0701150f0701160f0701170f0701180f0701190f07011a0f0701;
0x11b0f07011c0f07011d0f07011e0f07011f0f0701200f0701210f0701220f0701;
0x1230f0701240f0701250f07010110070102100701031007010410070105100701;
0x1061007010710070108100701091007010a1007010b1007010c1007010d100701;
0x10e1007010f100701101007011110070112100701131007011410070115100701;
0x1161007011710070118100701191007011a1007011b1007011c1007011d100701;
0x11e1007011f100701201007012110070122100701231007012410070125100701;
0x12610070101110701021107010311070104110701051107010611070107110701;
0x108110701091107010a1107010b1107010c1107010d1107010e1107010f110701;
0x11011070111110701121107011311070114110701151107011611070117110701;
0x118110701191107011a1107011b1107011c1107011d1107011e1107011f110701;
0x12011070121110701221107012311070124110701251107012611070100120701;
0x10112070102120701031207010412070105120701061207010712070108120701;
0x1091207010a1207010b1207010c1207010d1207010e1207010f12070110120701;
0x11112070112120701131207011412070115120701161207011712070118120701;
0x1191207011a1207011b1207011c1207011d1207011e1207011f12070120120701;
0x12112070122120701231207012412070125120701261207012712070100130701;
0x10113070102130701031307010413070105130701061307010713070108130701;
0x1091307010a1307010b1307010c1307010d1307010e1307010f13070110130701;
0x11113070112130701131307011413070115130701161307011713070118130701;
0x1191307011a1307011b1307011c1307011d1307011e1307011f13070120130701;
0x12113070122130701231307012413070125130701261307012713070100140701;
0x10114070102140701031407010414070105140701061407010714070108140701;
0x1091407010a1407010b1407010c1407010d1407010e1407010f14070110140701;
0x11114070112140701131407011414070115140701161407011714070118140701;
0x1191407011a1407011b1407011c1407011d1407011e1407011f14070120140701;
0x12114070122140701231407012414070125140701261407012714070100150701;
0x10115070102150701031507010415070105150701061507010715070108150701;
0x1091507010a1507010b1507010c1507010d1507010e1507010f15070110150701;
0x11115070112150701131507011415070115150701161507011715070118150701;
0x1191507011a1507011b1507011c1507011d1507011e1507011f15070120150701;
0x12115070122150701231507012415070125150701261507012715070101160701;
0x10216070103160701041607010516070106160701071607010816070109160701;
0x10a1607010b1607010c1607010d1607010e1607010f1607011016070111160701;
0x11216070113160701141607011516070116160701171607011816070119160701;
0x11a1607011b1607011c1607011d1607011e1607011f1607012016070121160701;
0x12216070123160701241607012516070126160701011707010217070103170701;
0x10417070105170701061707010717070108170701091707010a1707010b170701;
0x10c1707010d1707010e1707010f17070110170701111707011217070113170701;
0x11417070115170701161707011717070118170701191707011a1707011b170701;
0x11c1707011d1707011e1707011f17070120170701211707012217070123170701;
0x12417070125170701261707010218070103180701041807010518070106180701;
0x10718070108180701091807010a1807010b1807010c1807010d1807010e180701;
0x10f18070110180701111807011218070113180701141807011518070116180701;
0x11718070118180701191807011a1807011b1807011c1807011d1807011e180701;
0x11f18070120180701211807012218070123180701241807012518070102190701;
0x1031907010419070105190701061907010719070108190701091907010a190701;
0x10b1907010c1907010d1907010e1907010f190701101907011119070112190701;
0x1131907011419070115190701161907011719070118190701191907011a190701;
0x11b1907011c1907011d1907011e1907011f190701201907012119070122190701;
0x1231907012419070125190701021a0701031a0701041a0701051a0701061a0701;
0x1071a0701081a0701091a07010a1a07010b1a07010c1a07010d1a07010e1a0701;
0x10f1a0701101a0701111a0701121a0701131a0701141a0701151a0701161a0701;
0x1171a0701181a0701191a07011a1a07011b1a07011c1a07011d1a07011e1a0701;
0x11f1a0701201a0701211a0701221a0701231a0701241a0701251a0701021b0701;
0x1031b0701041b0701051b0701061b0701071b0701081b0701091b07010a1b0701;
0x10b1b07010c1b07010d1b07010e1b07010f1b0701101b0701111b0701121b0701;
0x1131b0701141b0701151b0701161b0701171b0701181b0701191b07011a1b0701;
0x11b1b07011c1b07011d1b07011e1b07011f1b0701201b0701211b0701221b0701;
0x1231b0701241b0701251b0701031c0701041c0701051c0701061c0701071c0701;
0x1081c0701091c07010a1c07010b1c07010c1c07010d1c07010e1c07010f1c0701;
0x1101c0701111c0701121c0701131c0701141c0701151c0701161c0701171c0701;
0x1181c0701191c07011a1c07011b1c07011c1c07011d1c07011e1c07011f1c0701;
0x1201c0701211c0701221c0701231c0701241c0701031d0701041d0701051d0701;
0x1061d0701071d0701081d0701091d07010a1d07010b1d07010c1d07010d1d0701;
0x10e1d07010f1d0701101d0701111d0701121d0701131d0701141d0701151d0701;
0x1161d0701171d0701181d0701191d07011a1d07011b1d07011c1d07011d1d0701;
0x11e1d07011f1d0701201d0701211d0701221d0701231d0701241d0701041e0701;
0x1051e0701061e0701071e0701081e0701091e07010a1e07010b1e07010c1e0701;
0x10d1e07010e1e07010f1e0701101e0701111e0701121e0701131e0701141e0701;
0x1151e0701161e0701171e0701181e0701191e07011a1e07011b1e07011c1e0701;
0x11d1e07011e1e07011f1e0701201e0701211e0701221e0701231e0701051f0701;
0x1061f0701071f0701081f0701091f07010a1f07010b1f07010c1f07010d1f0701;
0x10e1f07010f1f0701101f0701111f0701121f0701131f0701141f0701151f0701;
0x1161f0701171f0701181f0701191f07011a1f07011b1f07011c1f07011d1f0701;
0x11e1f07011f1f0701201f0701211f0701221f0701052007010620070107200701;
0x108200701092007010a2007010b2007010c2007010d2007010e2007010f200701;
0x11020070111200701122007011320070114200701152007011620070117200701;
0x118200701192007011a2007011b2007011c2007011d2007011e2007011f200701;
0x1202007012120070122200701062107010721070108210701092107010a210701;
0x10b2107010c2107010d2107010e2107010f210701102107011121070112210701;
0x1132107011421070115210701162107011721070118210701192107011a210701;
0x11b2107011c2107011d2107011e2107011f210701202107012121070107220701;
0x108220701092207010a2207010b2207010c2207010d2207010e2207010f220701;
0x11022070111220701122207011322070114220701152207011622070117220701;
0x118220701192207011a2207011b2207011c2207011d2207011e2207011f220701;
0x120220701092307010a2307010b2307010c2307010d2307010e2307010f230701;
0x11023070111230701122307011323070114230701152307011623070117230701;
0x118230701192307011a2307011b2307011c2307011d2307011e2307010a240701;
0x10b2407010c2407010d2407010e2407010f240701102407011124070112240701;
0x1132407011424070115240701162407011724070118240701192407011a240701;
0x11b2407011c2407011d2407010c2507010d2507010e2507010f25070110250701;
0x11125070112250701132507011425070115250701162507011725070118250701;
0x1192507011a2507011b2507011026070111260701122607011326070114260701;
0x11526070116260701172607011227070113270701142707011527070152474241;
0x1000400000000000000000000f0f0f0fff0f0f0fff0f0f0fff0f0f0fff0f0f0ff;
0x1f0f0f0fff0f0f0fff0f0f0fff0f0f0fff0f0f0fff0f0f0fff0f0f0fff0f0f0ff;
0x1f0f0f0fff0f0f0fff0f0f0fff0f0f0fff0f0f0fff0f0f0fff0f0f0fff0f0f0ff;
0x1f0f0f0fff0f0f0ffff0000ffff0000ffff0000ffff0000ffff0000ffff0000ff;
0x1ff0000ffff0000ffff0000ffff0000ffff0000ffff0000ffff0000ffff0000ff;
0x1ff0000ffff0000ffff0000ffff0000ffff0000ffff0000ffff0000ffff0000ff;
0x1ff0000ffff0000ffff0000ffff0000ffff0000ffff0000ffff0000ffff0000ff;
0x1ff0000ffff0000ffff0000ffff0000ffff0000ffff0000ffff0000ffff0000ff;
0x1ff0000ffff0000ffff0000ffff0000ffff0000ffff0000ffff0000ffff0000ff;
0x1ff0000ffff0000ffff0000ffff0000ffff0000ffff0000ffff0000ffff0000ff;
0x1ff0000ffff0000ffff0000ffff0000ffff0000ffff0000ffff0000ffff0000ff;
0x1ff0000ffff0000ffff0000ffff0000ffff0000ffff0000ffff0000ffff0000ff;
0x1ff0000ffff0000ffff0000ffff0000ffff0000ffff0000ffff0000ffff0000ff;
0x1ff0000ffff0000ffff0000ffff0000ffff0000ffff0000ffff0000ffff0000ff;
0x1ff0000fff0f0f0fff0f0f0fff0f0f0fff0f0f0fff0f0f0fff0f0f0fff0f0f0ff;
0x1f0f0f0fff0f0f0fff0f0f0fff0f0f0fff0f0f0fff0f0f0fff0f0f0fff0f0f0ff;
0x1f0f0f0fff0f0f0fff0f0f0fff0f0f0fff0f0f0fff0f0f0fff0f0f0fff0f0f0ff;
0x1f0f0f0fff0f0f0fff0f0f0fff0f0f0fff0f0f0fff0f0f0fff0f0f0fff0f0f0ff;
0x1f0f0f0fff0f0f0fff0f0f0fff0f0f0fff0f0f0fff0f0f0fff0f0f0fff0f0f0ff;
0x1f0f0f0fff0f0f0fff0f0f0fff0f0f0fff0f0f0fff0f0f0fff0f0f0fff0f0f0ff;
0x1f0f0f0fff0f0f0fff0f0f0fff0f0f0fff0f0f0fff0f0f0fff0f0f0fff0f0f0ff;
0x1f0f0f0fff0f0f0fff0f0f0fff0f0f0fff0f0f0fff0f0f0fff0f0f0fff0f0f0ff;
0x1f0f0f0fff0f0f0fff0f0f0fff0f0f0fff0f0f0fff0f0f0fff0f0f0fff0f0f0ff;
0x1f0f0f0fff0f0f0fff0f0f0fff0f0f0fff0f0f0fff0f0f0fff0f0f0fff0f0f0ff;
0x1f0f0f0fff0f0f0fff0f0f0fff0f0f0fff0f0f0fff0f0f0fff0f0f0fff0f0f0ff;
0x1f0f0f0fff0f0f0ff000000000000000000000000000000000000000000000000;
0x10000000000000000000000000000000000000000000000000000000000000000;
0x10000000000000000000000000000000000000000000000000000000000000000;
0x10000000000000000000000000000000000000000000000000000000000000000;
0x10000000000000000000000000000000000000000000000000000000000000000;
0x10000000000000000000000000000000000000000000000000000000000000000;
0x10000000000000000000000000000000000000000000000000000000000000000;
0x10000000000000000].
(** redeclipse/prefabs/spacestation/station_right.vox (1704 bytes) *)
Definition vox_spacestation_station_right : list Z := [
0x1564f5820960000004d41494e000000009406000053495a450c00000000000000;
0x108000000080000000800000058595a4964020000000000009800000002000001;
0x10300000104000001050000010201000103010001040100010501000100020001;
0x10102000102020001030200010402000105020001000300010103000102030001;
0x10303000104030001050300010004000101040001020400010304000104040001;
0x10504000100050001010500010205000103050001040500010505000101000101;
0x10600010100010101010101010601010106020101060301010604010106050101;
0x10006010101060101020601010306010104060101050601010606010100000201;
0x10700020107010201070202010703020107040201070502010606020100070201;
0x10107020102070201030702010407020105070201000003010700030107010301;
0x10702030107030301070403010705030106060301000703010107030102070301;
0x10307030104070301050703010000040107000401070104010702040107030401;
0x10704040107050401060604010007040101070401020704010307040104070401;
0x10507040100000501070005010701050107020501070305010704050107050501;
0x10606050100070501010705010207050103070501040705010507050101000601;
0x10600060100010601010106010601060106020601060306010604060106050601;
0x10006060101060601020606010306060104060601050606010606060102000701;
0x10300070104000701050007010201070103010701040107010501070100020701;
0x10102070102020701030207010402070105020701000307010103070102030701;
0x10303070104030701050307010004070101040701020407010304070104040701;
0x10504070100050701010507010205070103050701040507010505070152474241;
0x1000400000000000000000000f0f0f0fff0f0f0fff0f0f0fff0f0f0fff0f0f0ff;
0x1f0f0f0fff0f0f0fff0f0f0fff0f0f0fff0f0f0fff0f0f0fff0f0f0fff0f0f0ff;
0x1f0f0f0fff0f0f0fff0f0f0fff0f0f0fff0f0f0fff0f0f0fff0f0f0fff0f0f0ff;
0x1f0f0f0fff0f0f0fff0f0f0fff0f0f0fff0f0f0fff0f0f0fff0f0f0fff0f0f0ff;
0x1f0f0f0fff0f0f0fff0f0f0fff0f0f0fff0f0f0fff0f0f0fff0f0f0fff0f0f0ff;
0x1f0f0f0fff0f0f0fff0f0f0fff0f0f0fff0f0f0fff0f0f0fff0f0f0fff0f0f0ff;
0x1f0f0f0fff0f0f0fff0f0f0fff0f0f0fff0f0f0fff0f0f0fff0f0f0fff0f0f0ff;
0x1f0f0f0fff0f0f0fff0f0f0fff0f0f0fff0f0f0fff0f0f0fff0f0f0fff0f0f0ff;
0x1f0f0f0fff0f0f0fff0f0f0fff0f0f0fff0f0f0fff0f0f0fff0f0f0fff0f0f0ff;
0x1f0f0f0fff0f0f0fff0f0f0fff0f0f0fff0f0f0fff0f0f0fff0f0f0fff0f0f0ff;
0x1f0f0f0fff0f0f0fff0f0f0fff0f0f0fff0f0f0fff0f0f0fff0f0f0fff0f0f0ff;
0x1f0f0f0fff0f0f0fff0f0f0fff0f0f0fff0f0f0fff0f0f0fff0f0f0fff0f0f0ff;
0x1f0f0f0fff0f0f0fff0f0f0fff0f0f0fff0f0f0fff0f0f0fff0f0f0fff0f0f0ff;
0x1f0f0f0fff0f0f0fff0f0f0fff0f0f0fff0f0f0fff0f0f0fff0f0f0fff0f0f0ff;
0x1f0f0f0fff0f0f0fff0f0f0fff0f0f0fff0f0f0fff0f0f0fff0f0f0fff0f0f0ff;
0x1f0f0f0ff00000000000000000000000000000000000000000000000000000000;
0x10000000000000000000000000000000000000000000000000000000000000000;
0x10000000000000000000000000000000000000000000000000000000000000000;
0x10000000000000000000000000000000000000000000000000000000000000000;
0x10000000000000000000000000000000000000000000000000000000000000000;
0x10000000000000000000000000000000000000000000000000000000000000000;
0x10000000000000000000000000000000000000000000000000000000000000000;
0x10000000000000000000000000000000000000000000000000000000000000000;
0x10000000000000000000000000000000000000000000000000000000000000000;
0x10000000000000000000000000000000000000000000000000000000000000000;
0x10000000000000000000000000000000000000000000000000000000000000000;
0x10000000000000000000000000000000000000000000000000000000000000000;
0x10000000000000000000000000000000000000000000000000000000000000000;
0x10000000000000000000000000000000000000000000000000000000000000000;
0x10000000000000000000000000000000000000000000000000000000000000000;
0x10000000000000000000000000000000000000000000000000000000000000000;
0x10000000000000000000000000000000000000000000000000000000000000000;
0x10000000000000000].
(** redeclipse/prefabs/spacestation/station_ring.vox (12424 bytes) *)
Definition vox_spacestation_station_ring : list Z := [
0x1564f5820960000004d41494e000000007430000053495a450c00000000000000;
0x128000000280000000800000058595a49442c000000000000100b000011000001;
0x112000001130000011400000115000001160000010c0100010d0100010e010001;
0x10f01000110010001110100011201000113010001140100011501000116010001;
0x11701000118010001190100011a0100011b0100010a0200010b0200010c020001;
0x10d0200010e0200010f0200011002000111020001120200011302000114020001;
0x115020001160200011702000118020001190200011a0200011b0200011c020001;
0x11d020001090300010a0300010b0300010c0300010d0300010e0300010f030001;
0x11003000111030001120300011303000114030001150300011603000117030001;
0x118030001190300011a0300011b0300011c0300011d0300011e03000107040001;
0x108040001090400010a0400010b0400010c0400010d0400010e0400010f040001;
0x11004000111040001120400011304000114040001150400011604000117040001;
0x118040001190400011a0400011b0400011c0400011d0400011e0400011f040001;
0x120040001060500010705000108050001090500010a0500010b0500010c050001;
0x10d0500010e0500010f0500011005000111050001120500011305000114050001;
0x115050001160500011705000118050001190500011a0500011b0500011c050001;
0x11d0500011e0500011f0500012005000121050001050600010606000107060001;
0x108060001090600010a0600010b0600010c0600010d0600010e0600010f060001;
0x11006000111060001120600011306000114060001150600011606000117060001;
0x118060001190600011a0600011b0600011c0600011d0600011e0600011f060001;
0x12006000121060001220600010407000105070001060700010707000108070001;
0x1090700010a0700010b0700010c0700010d0700010e0700010f07000110070001;
0x11107000112070001130700011407000115070001160700011707000118070001;
0x1190700011a0700011b0700011c0700011d0700011e0700011f07000120070001;
0x12107000122070001230700010408000105080001060800010708000108080001;
0x1090800010a0800010b0800010c0800010d0800010e0800010f08000110080001;
0x11708000118080001190800011a0800011b0800011c0800011d0800011e080001;
0x11f08000120080001210800012208000123080001030900010409000105090001;
0x1060900010709000108090001090900010a0900010b0900010c0900010d090001;
0x11a0900011b0900011c0900011d0900011e0900011f0900012009000121090001;
0x1220900012309000124090001020a0001030a0001040a0001050a0001060a0001;
0x1070a0001080a0001090a00010a0a00010b0a00010c0a00011b0a00011c0a0001;
0x11d0a00011e0a00011f0a0001200a0001210a0001220a0001230a0001240a0001;
0x1250a0001020b0001030b0001040b0001050b0001060b0001070b0001080b0001;
0x1090b00010a0b00010b0b00011c0b00011d0b00011e0b00011f0b0001200b0001;
0x1210b0001220b0001230b0001240b0001250b0001010c0001020c0001030c0001;
0x1040c0001050c0001060c0001070c0001080c0001090c00010a0c00011d0c0001;
0x11e0c00011f0c0001200c0001210c0001220c0001230c0001240c0001250c0001;
0x1260c0001010d0001020d0001030d0001040d0001050d0001060d0001070d0001;
0x1080d0001090d00011e0d00011f0d0001200d0001210d0001220d0001230d0001;
0x1240d0001250d0001260d0001010e0001020e0001030e0001040e0001050e0001;
0x1060e0001070e0001080e00011f0e0001200e0001210e0001220e0001230e0001;
0x1240e0001250e0001260e0001010f0001020f0001030f0001040f0001050f0001;
0x1060f0001070f0001080f00011f0f0001200f0001210f0001220f0001230f0001;
0x1240f0001250f0001260f00010110000102100001031000010410000105100001;
0x10610000107100001081000011f10000120100001211000012210000123100001;
0x12410000125100001261000010011000101110001021100010311000104110001;
0x10511000106110001071100012011000121110001221100012311000124110001;
0x12511000126110001271100010012000101120001021200010312000104120001;
0x10512000106120001071200012012000121120001221200012312000124120001;
0x12512000126120001271200010013000101130001021300010313000104130001;
0x10513000106130001071300012013000121130001221300012313000124130001;
0x12513000126130001271300010014000101140001021400010314000104140001;
0x10514000106140001071400012014000121140001221400012314000124140001;
0x12514000126140001271400010015000101150001021500010315000104150001;
0x10515000106150001071500012015000121150001221500012315000124150001;
0x12515000126150001271500010016000101160001021600010316000104160001;
0x10516000106160001071600012016000121160001221600012316000124160001;
0x12516000126160001271600010117000102170001031700010417000105170001;
0x10617000107170001081700011f17000120170001211700012217000123170001;
0x12417000125170001261700010118000102180001031800010418000105180001;
0x10618000107180001081800011f18000120180001211800012218000123180001;
0x12418000125180001261800010119000102190001031900010419000105190001;
0x10619000107190001081900011f19000120190001211900012219000123190001;
0x1241900012519000126190001011a0001021a0001031a0001041a0001051a0001;
0x1061a0001071a0001081a0001091a00011e1a00011f1a0001201a0001211a0001;
0x1221a0001231a0001241a0001251a0001261a0001011b0001021b0001031b0001;
0x1041b0001051b0001061b0001071b0001081b0001091b00010a1b00011d1b0001;
0x11e1b00011f1b0001201b0001211b0001221b0001231b0001241b0001251b0001;
0x1261b0001021c0001031c0001041c0001051c0001061c0001071c0001081c0001;
0x1091c00010a1c00010b1c00011c1c00011d1c00011e1c00011f1c0001201c0001;
0x1211c0001221c0001231c0001241c0001251c0001021d0001031d0001041d0001;
0x1051d0001061d0001071d0001081d0001091d00010a1d00010b1d00010c1d0001;
0x11b1d00011c1d00011d1d00011e1d00011f1d0001201d0001211d0001221d0001;
0x1231d0001241d0001251d0001031e0001041e0001051e0001061e0001071e0001;
0x1081e0001091e00010a1e00010b1e00010c1e00010d1e00011a1e00011b1e0001;
0x11c1e00011d1e00011e1e00011f1e0001201e0001211e0001221e0001231e0001;
0x1241e0001041f0001051f0001061f0001071f0001081f0001091f00010a1f0001;
0x10b1f00010c1f00010d1f00010e1f00010f1f0001101f0001171f0001181f0001;
0x1191f00011a1f00011b1f00011c1f00011d1f00011e1f00011f1f0001201f0001;
0x1211f0001221f0001231f00010420000105200001062000010720000108200001;
0x1092000010a2000010b2000010c2000010d2000010e2000010f20000110200001;
0x11120000112200001132000011420000115200001162000011720000118200001;
0x1192000011a2000011b2000011c2000011d2000011e2000011f20000120200001;
0x12120000122200001232000010521000106210001072100010821000109210001;
0x10a2100010b2100010c2100010d2100010e2100010f2100011021000111210001;
0x11221000113210001142100011521000116210001172100011821000119210001;
0x11a2100011b2100011c2100011d2100011e2100011f2100012021000121210001;
0x122210001062200010722000108220001092200010a2200010b2200010c220001;
0x10d2200010e2200010f2200011022000111220001122200011322000114220001;
0x115220001162200011722000118220001192200011a2200011b2200011c220001;
0x11d2200011e2200011f2200012022000121220001072300010823000109230001;
0x10a2300010b2300010c2300010d2300010e2300010f2300011023000111230001;
0x11223000113230001142300011523000116230001172300011823000119230001;
0x11a2300011b2300011c2300011d2300011e2300011f2300012023000109240001;
0x10a2400010b2400010c2400010d2400010e2400010f2400011024000111240001;
0x11224000113240001142400011524000116240001172400011824000119240001;
0x11a2400011b2400011c2400011d2400011e2400010a2500010b2500010c250001;
0x10d2500010e2500010f2500011025000111250001122500011325000114250001;
0x115250001162500011725000118250001192500011a2500011b2500011c250001;
0x11d2500010c2600010d2600010e2600010f260001102600011126000112260001;
0x1132600011426000115260001162600011726000118260001192600011a260001;
0x11b26000110270001112700011227000113270001142700011527000116270001;
0x117270001100001011100010116000101170001010b0101010c0101010d010101;
0x10e0101010f01010118010101190101011a0101011b0101011c01010109020101;
0x10a0201010b0201011c0201011d0201011e02010108030101090301011e030101;
0x11f0301010604010107040101080401011f040101200401012104010105050101;
0x10605010121050101220501010406010105060101220601012306010104070101;
0x11107010112070101130701011407010115070101160701012307010103080101;
0x1040801010e0801010f0801011008010111080101160801011708010118080101;
0x119080101230801012408010102090101030901010d0901010e09010119090101;
0x11a0901012409010125090101020a01010c0a01010d0a01011a0a01011b0a0101;
0x1250a0101010b0101020b01010b0b01010c0b01011b0b01011c0b0101250b0101;
0x1260b0101010c01010a0c01010b0c01011c0c01011d0c0101260c0101010d0101;
0x1090d01010a0d01011d0d01011e0d0101260d0101010e0101080e0101090e0101;
0x11e0e01011f0e0101260e0101010f0101080f01011f0f0101260f010100100101;
0x1081001011f100101271001010011010107110101081101011f11010120110101;
0x12711010107120101201201010713010120130101071401012014010107150101;
0x1201501010016010107160101081601011f160101201601012716010100170101;
0x1081701011f1701012717010101180101081801011f1801012618010101190101;
0x108190101091901011e1901011f19010126190101011a0101091a01010a1a0101;
0x11d1a01011e1a0101261a0101011b01010a1b01010b1b01011c1b01011d1b0101;
0x1261b0101011c0101021c01010b1c01010c1c01011b1c01011c1c0101251c0101;
0x1261c0101021d01010c1d01010d1d01011a1d01011b1d0101251d0101021e0101;
0x1031e01010d1e01010e1e0101191e01011a1e0101241e0101251e0101031f0101;
0x1041f01010e1f01010f1f0101101f0101111f0101161f0101171f0101181f0101;
0x1191f0101231f0101241f01010420010111200101122001011320010114200101;
0x11520010116200101232001010421010105210101222101012321010105220101;
0x10622010121220101222201010623010107230101082301011f23010120230101;
0x12123010108240101092401011e2401011f240101092501010a2501010b250101;
0x11c2501011d2501011e2501010b2601010c2601010d2601010e2601010f260101;
0x118260101192601011a2601011b2601011c260101102701011127010116270101;
0x11727010110000201170002010b0102010c0102010d0102010e0102010f010201;
0x118010201190102011a0102011b0102011c010201090202010a0202010b020201;
0x11c0202011d0202011e02020108030201090302011e0302011f03020106040201;
0x107040201080402011f0402012004020121040201050502010605020121050201;
0x12205020104060201050602012206020123060201040702011107020112070201;
0x1130702011407020115070201160702012307020103080201040802010e080201;
0x10f08020110080201110802011608020117080201180802011908020123080201;
0x12408020102090201030902010d0902010e090201190902011a09020124090201;
0x125090201020a02010c0a02010d0a02011a0a02011b0a0201250a0201010b0201;
0x1020b02010b0b02010c0b02011b0b02011c0b0201250b0201260b0201010c0201;
0x10a0c02010b0c02011c0c02011d0c0201260c0201010d0201090d02010a0d0201;
0x11d0d02011e0d0201260d0201010e0201080e0201090e02011e0e02011f0e0201;
0x1260e0201010f0201080f02011f0f0201260f020100100201081002011f100201;
0x12710020107110201081102011f11020120110201071202012012020107130201;
0x1201302010714020120140201071502012015020107160201081602011f160201;
0x12016020100170201081702011f1702012717020101180201081802011f180201;
0x1261802010119020108190201091902011e1902011f19020126190201011a0201;
0x1091a02010a1a02011d1a02011e1a0201261a0201011b02010a1b02010b1b0201;
0x11c1b02011d1b0201261b0201011c0201021c02010b1c02010c1c02011b1c0201;
0x11c1c0201251c0201261c0201021d02010c1d02010d1d02011a1d02011b1d0201;
0x1251d0201021e0201031e02010d1e02010e1e0201191e02011a1e0201241e0201;
0x1251e0201031f0201041f02010e1f02010f1f0201101f0201111f0201161f0201;
0x1171f0201181f0201191f0201231f0201241f0201042002011120020112200201;
0x11320020114200201152002011620020123200201042102010521020122210201;
0x12321020105220201062202012122020122220201062302010723020108230201;
0x11f230201202302012123020108240201092402011e2402011f24020109250201;
0x10a2502010b2502011c2502011d2502011e2502010b2602010c2602010d260201;
0x10e2602010f26020118260201192602011a2602011b2602011c26020110270201;
0x11727020110000301170003010b0103010c0103010d0103010e0103010f010301;
0x118010301190103011a0103011b0103011c010301090203010a0203010b020301;
0x11c0203011d0203011e02030108030301090303011e0303011f03030106040301;
0x107040301080403011f0403012004030121040301050503010605030121050301;
0x12205030104060301050603012206030123060301040703011107030112070301;
0x1130703011407030115070301160703012307030103080301040803010e080301;
0x10f08030110080301110803011608030117080301180803011908030123080301;
0x12408030102090301030903010d0903010e090301190903011a09030124090301;
0x125090301020a03010c0a03010d0a03011a0a03011b0a0301250a0301010b0301;
0x1020b03010b0b03010c0b03011b0b03011c0b0301250b0301260b0301010c0301;
0x10a0c03010b0c03011c0c03011d0c0301260c0301010d0301090d03010a0d0301;
0x11d0d03011e0d0301260d0301010e0301080e0301090e03011e0e03011f0e0301;
0x1260e0301010f0301080f03011f0f0301260f030100100301081003011f100301;
0x12710030107110301081103011f11030120110301071203012012030107130301;
0x1201303010714030120140301071503012015030107160301081603011f160301;
0x12016030100170301081703011f1703012717030101180301081803011f180301;
0x1261803010119030108190301091903011e1903011f19030126190301011a0301;
0x1091a03010a1a03011d1a03011e1a0301261a0301011b03010a1b03010b1b0301;
0x11c1b03011d1b0301261b0301011c0301021c03010b1c03010c1c03011b1c0301;
0x11c1c0301251c0301261c0301021d03010c1d03010d1d03011a1d03011b1d0301;
0x1251d0301021e0301031e03010d1e03010e1e0301191e03011a1e0301241e0301;
0x1251e0301031f0301041f03010e1f03010f1f0301101f0301111f0301161f0301;
0x1171f0301181f0301191f0301231f0301241f0301042003011120030112200301;
0x11320030114200301152003011620030123200301042103010521030122210301;
0x12321030105220301062203012122030122220301062303010723030108230301;
0x11f230301202303012123030108240301092403011e2403011f24030109250301;
0x10a2503010b2503011c2503011d2503011e2503010b2603010c2603010d260301;
0x10e2603010f26030118260301192603011a2603011b2603011c26030110270301;
0x11727030110000401170004010b0104010c0104010d0104010e0104010f010401;
0x118010401190104011a0104011b0104011c010401090204010a0204010b020401;
0x11c0204011d0204011e02040108030401090304011e0304011f03040106040401;
0x107040401080404011f0404012004040121040401050504010605040121050401;
0x12205040104060401050604012206040123060401040704011107040112070401;
0x1130704011407040115070401160704012307040103080401040804010e080401;
0x10f08040110080401110804011608040117080401180804011908040123080401;
0x12408040102090401030904010d0904010e090401190904011a09040124090401;
0x125090401020a04010c0a04010d0a04011a0a04011b0a0401250a0401010b0401;
0x1020b04010b0b04010c0b04011b0b04011c0b0401250b0401260b0401010c0401;
0x10a0c04010b0c04011c0c04011d0c0401260c0401010d0401090d04010a0d0401;
0x11d0d04011e0d0401260d0401010e0401080e0401090e04011e0e04011f0e0401;
0x1260e0401010f0401080f04011f0f0401260f040100100401081004011f100401;
0x12710040107110401081104011f11040120110401071204012012040107130401;
0x1201304010714040120140401071504012015040107160401081604011f160401;
0x12016040100170401081704011f1704012717040101180401081804011f180401;
0x1261804010119040108190401091904011e1904011f19040126190401011a0401;
0x1091a04010a1a04011d1a04011e1a0401261a0401011b04010a1b04010b1b0401;
0x11c1b04011d1b0401261b0401011c0401021c04010b1c04010c1c04011b1c0401;
0x11c1c0401251c0401261c0401021d04010c1d04010d1d04011a1d04011b1d0401;
0x1251d0401021e0401031e04010d1e04010e1e0401191e04011a1e0401241e0401;
0x1251e0401031f0401041f04010e1f04010f1f0401101f0401111f0401161f0401;
0x1171f0401181f0401191f0401231f0401241f0401042004011120040112200401;
0x11320040114200401152004011620040123200401042104010521040122210401;
0x12321040105220401062204012122040122220401062304010723040108230401;
0x11f230401202304012123040108240401092404011e2404011f24040109250401;
0x10a2504010b2504011c2504011d2504011e2504010b2604010c2604010d260401;
0x10e2604010f26040118260401192604011a2604011b2604011c26040110270401;
0x11727040110000501170005010b0105010c0105010d0105010e0105010f010501;
0x118010501190105011a0105011b0105011c010501090205010a0205010b020501;
0x11c0205011d0205011e02050108030501090305011e0305011f03050106040501;
0x107040501080405011f0405012004050121040501050505010605050121050501;
0x12205050104060501050605012206050123060501040705011107050112070501;
0x1130705011407050115070501160705012307050103080501040805010e080501;
0x10f08050110080501110805011608050117080501180805011908050123080501;
0x12408050102090501030905010d0905010e090501190905011a09050124090501;
0x125090501020a05010c0a05010d0a05011a0a05011b0a0501250a0501010b0501;
0x1020b05010b0b05010c0b05011b0b05011c0b0501250b0501260b0501010c0501;
0x10a0c05010b0c05011c0c05011d0c0501260c0501010d0501090d05010a0d0501;
0x11d0d05011e0d0501260d0501010e0501080e0501090e05011e0e05011f0e0501;
0x1260e0501010f0501080f05011f0f0501260f050100100501081005011f100501;
0x12710050107110501081105011f11050120110501071205012012050107130501;
0x1201305010714050120140501071505012015050107160501081605011f160501;
0x12016050100170501081705011f1705012717050101180501081805011f180501;
0x1261805010119050108190501091905011e1905011f19050126190501011a0501;
0x1091a05010a1a05011d1a05011e1a0501261a0501011b05010a1b05010b1b0501;
0x11c1b05011d1b0501261b0501011c0501021c05010b1c05010c1c05011b1c0501;
0x11c1c0501251c0501261c0501021d05010c1d05010d1d05011a1d05011b1d0501;
0x1251d0501021e0501031e05010d1e05010e1e0501191e05011a1e0501241e0501;
0x1251e0501031f0501041f05010e1f05010f1f0501101f0501111f0501161f0501;
0x1171f0501181f0501191f0501231f0501241f0501042005011120050112200501;
0x11320050114200501152005011620050123200501042105010521050122210501;
0x12321050105220501062205012122050122220501062305010723050108230501;
0x11f230501202305012123050108240501092405011e2405011f24050109250501;
0x10a2505010b2505011c2505011d2505011e2505010b2605010c2605010d260501;
0x10e2605010f26050118260501192605011a2605011b2605011c26050110270501;
0x117270501100006011100060116000601170006010b0106010c0106010d010601;
0x10e0106010f01060118010601190106011a0106011b0106011c01060109020601;
0x10a0206010b0206011c0206011d0206011e02060108030601090306011e030601;
0x11f0306010604060107040601080406011f040601200406012104060105050601;
0x10605060121050601220506010406060105060601220606012306060104070601;
0x11107060112070601130706011407060115070601160706012307060103080601;
0x1040806010e0806010f0806011008060111080601160806011708060118080601;
0x119080601230806012408060102090601030906010d0906010e09060119090601;
0x11a0906012409060125090601020a06010c0a06010d0a06011a0a06011b0a0601;
0x1250a0601010b0601020b06010b0b06010c0b06011b0b06011c0b0601250b0601;
0x1260b0601010c06010a0c06010b0c06011c0c06011d0c0601260c0601010d0601;
0x1090d06010a0d06011d0d06011e0d0601260d0601010e0601080e0601090e0601;
0x11e0e06011f0e0601260e0601010f0601080f06011f0f0601260f060100100601;
0x1081006011f100601271006010011060107110601081106011f11060120110601;
0x12711060107120601201206010713060120130601071406012014060107150601;
0x1201506010016060107160601081606011f160601201606012716060100170601;
0x1081706011f1706012717060101180601081806011f1806012618060101190601;
0x108190601091906011e1906011f19060126190601011a0601091a06010a1a0601;
0x11d1a06011e1a0601261a0601011b06010a1b06010b1b06011c1b06011d1b0601;
0x1261b0601011c0601021c06010b1c06010c1c06011b1c06011c1c0601251c0601;
0x1261c0601021d06010c1d06010d1d06011a1d06011b1d0601251d0601021e0601;
0x1031e06010d1e06010e1e0601191e06011a1e0601241e0601251e0601031f0601;
0x1041f06010e1f06010f1f0601101f0601111f0601161f0601171f0601181f0601;
0x1191f0601231f0601241f06010420060111200601122006011320060114200601;
0x11520060116200601232006010421060105210601222106012321060105220601;
0x10622060121220601222206010623060107230601082306011f23060120230601;
0x12123060108240601092406011e2406011f240601092506010a2506010b250601;
0x11c2506011d2506011e2506010b2606010c2606010d2606010e2606010f260601;
0x118260601192606011a2606011b2606011c260601102706011127060116270601;
0x11727060111000701120007011300070114000701150007011600070110010701;
0x1110107011201070113010701140107011501070116010701170107010c020701;
0x10d0207010e0207010f0207011002070111020701120207011302070114020701;
0x115020701160207011702070118020701190207011a0207011b0207010a030701;
0x10b0307010c0307010d0307010e0307010f030701100307011103070112030701;
0x1130307011403070115030701160307011703070118030701190307011a030701;
0x11b0307011c0307011d030701090407010a0407010b0407010c0407010d040701;
0x10e0407010f040701100407011104070112040701130407011404070115040701;
0x1160407011704070118040701190407011a0407011b0407011c0407011d040701;
0x11e0407010705070108050701090507010a0507010b0507010c0507010d050701;
0x10e0507010f050701100507011105070112050701130507011405070115050701;
0x1160507011705070118050701190507011a0507011b0507011c0507011d050701;
0x11e0507011f05070120050701060607010706070108060701090607010a060701;
0x10b0607010c0607010d0607010e0607010f060701100607011106070112060701;
0x1130607011406070115060701160607011706070118060701190607011a060701;
0x11b0607011c0607011d0607011e0607011f060701200607012106070105070701;
0x1060707010707070108070701090707010a0707010b0707010c0707010d070701;
0x10e0707010f070701100707011707070118070701190707011a0707011b070701;
0x11c0707011d0707011e0707011f07070120070701210707012207070105080701;
0x1060807010708070108080701090807010a0807010b0807010c0807010d080701;
0x11a0807011b0807011c0807011d0807011e0807011f0807012008070121080701;
0x1220807010409070105090701060907010709070108090701090907010a090701;
0x10b0907010c0907011b0907011c0907011d0907011e0907011f09070120090701;
0x1210907012209070123090701030a0701040a0701050a0701060a0701070a0701;
0x1080a0701090a07010a0a07010b0a07011c0a07011d0a07011e0a07011f0a0701;
0x1200a0701210a0701220a0701230a0701240a0701030b0701040b0701050b0701;
0x1060b0701070b0701080b0701090b07010a0b07011d0b07011e0b07011f0b0701;
0x1200b0701210b0701220b0701230b0701240b0701020c0701030c0701040c0701;
0x1050c0701060c0701070c0701080c0701090c07011e0c07011f0c0701200c0701;
0x1210c0701220c0701230c0701240c0701250c0701020d0701030d0701040d0701;
0x1050d0701060d0701070d0701080d07011f0d0701200d0701210d0701220d0701;
0x1230d0701240d0701250d0701020e0701030e0701040e0701050e0701060e0701;
0x1070e0701200e0701210e0701220e0701230e0701240e0701250e0701020f0701;
0x1030f0701040f0701050f0701060f0701070f0701200f0701210f0701220f0701;
0x1230f0701240f0701250f07010110070102100701031007010410070105100701;
0x10610070107100701201007012110070122100701231007012410070125100701;
0x12610070100110701011107010211070103110701041107010511070106110701;
0x12111070122110701231107012411070125110701261107012711070100120701;
0x10112070102120701031207010412070105120701061207012112070122120701;
0x12312070124120701251207012612070127120701001307010113070102130701;
0x10313070104130701051307010613070121130701221307012313070124130701;
0x12513070126130701271307010014070101140701021407010314070104140701;
0x10514070106140701211407012214070123140701241407012514070126140701;
0x12714070100150701011507010215070103150701041507010515070106150701;
0x12115070122150701231507012415070125150701261507012715070100160701;
0x10116070102160701031607010416070105160701061607012116070122160701;
0x12316070124160701251607012616070127160701011707010217070103170701;
0x10417070105170701061707010717070120170701211707012217070123170701;
0x12417070125170701261707010218070103180701041807010518070106180701;
0x10718070120180701211807012218070123180701241807012518070102190701;
0x10319070104190701051907010619070107190701201907012119070122190701;
0x1231907012419070125190701021a0701031a0701041a0701051a0701061a0701;
0x1071a0701081a07011f1a0701201a0701211a0701221a0701231a0701241a0701;
0x1251a0701021b0701031b0701041b0701051b0701061b0701071b0701081b0701;
0x1091b07011e1b07011f1b0701201b0701211b0701221b0701231b0701241b0701;
0x1251b0701031c0701041c0701051c0701061c0701071c0701081c0701091c0701;
0x10a1c07011d1c07011e1c07011f1c0701201c0701211c0701221c0701231c0701;
0x1241c0701031d0701041d0701051d0701061d0701071d0701081d0701091d0701;
0x10a1d07010b1d07011c1d07011d1d07011e1d07011f1d0701201d0701211d0701;
0x1221d0701231d0701241d0701041e0701051e0701061e0701071e0701081e0701;
0x1091e07010a1e07010b1e07010c1e07011b1e07011c1e07011d1e07011e1e0701;
0x11f1e0701201e0701211e0701221e0701231e0701051f0701061f0701071f0701;
0x1081f0701091f07010a1f07010b1f07010c1f07010d1f07011a1f07011b1f0701;
0x11c1f07011d1f07011e1f07011f1f0701201f0701211f0701221f070105200701;
0x1062007010720070108200701092007010a2007010b2007010c2007010d200701;
0x10e2007010f200701102007011720070118200701192007011a2007011b200701;
0x11c2007011d2007011e2007011f20070120200701212007012220070106210701;
0x10721070108210701092107010a2107010b2107010c2107010d2107010e210701;
0x10f21070110210701112107011221070113210701142107011521070116210701;
0x11721070118210701192107011a2107011b2107011c2107011d2107011e210701;
0x11f21070120210701212107010722070108220701092207010a2207010b220701;
0x10c2207010d2207010e2207010f22070110220701112207011222070113220701;
0x11422070115220701162207011722070118220701192207011a2207011b220701;
0x11c2207011d2207011e2207011f22070120220701092307010a2307010b230701;
0x10c2307010d2307010e2307010f23070110230701112307011223070113230701;
0x11423070115230701162307011723070118230701192307011a2307011b230701;
0x11c2307011d2307011e2307010a2407010b2407010c2407010d2407010e240701;
0x10f24070110240701112407011224070113240701142407011524070116240701;
0x11724070118240701192407011a2407011b2407011c2407011d2407010c250701;
0x10d2507010e2507010f2507011025070111250701122507011325070114250701;
0x115250701162507011725070118250701192507011a2507011b25070110260701;
0x11126070112260701132607011426070115260701162607011726070110270701;
0x11127070112270701132707011427070115270701162707011727070152474241;
0x1000400000000000000000000f0f0f0fff0f0f0fff0f0f0fff0f0f0fff0f0f0ff;
0x1f0f0f0fff0f0f0fff0f0f0fff0f0f0fff0f0f0fff0f0f0fff0f0f0fff0f0f0ff;
0x1f0f0f0fff0f0f0fff0f0f0fff0f0f0fff0f0f0fff0f0f0fff0f0f0fff0f0f0ff;
0x1f0f0f0fff0f0f0fff0f0f0fff0f0f0fff0f0f0fff0f0f0fff0f0f0fff0f0f0ff;
0x1f0f0f0fff0f0f0fff0f0f0fff0f0f0fff0f0f0fff0f0f0fff0f0f0fff0f0f0ff;
0x1f0f0f0fff0f0f0fff0f0f0fff0f0f0fff0f0f0fff0f0f0fff0f0f0fff0f0f0ff;
0x1f0f0f0fff0f0f0fff0f0f0fff0f0f0fff0f0f0fff0f0f0fff0f0f0fff0f0f0ff;
0x1f0f0f0fff0f0f0fff0f0f0fff0f0f0fff0f0f0fff0f0f0fff0f0f0fff0f0f0ff;
0x1f0f0f0fff0f0f0fff0f0f0fff0f0f0fff0f0f0fff0f0f0fff0f0f0fff0f0f0ff;
0x1f0f0f0fff0f0f0fff0f0f0fff0f0f0fff0f0f0fff0f0f0fff0f0f0fff0f0f0ff;
0x1f0f0f0fff0f0f0fff0f0f0fff0f0f0fff0f0f0fff0f0f0fff0f0f0fff0f0f0ff;
0x1f0f0f0fff0f0f0fff0f0f0fff0f0f0fff0f0f0fff0f0f0fff0f0f0fff0f0f0ff;
0x1f0f0f0fff0f0f0fff0f0f0fff0f0f0fff0f0f0fff0f0f0fff0f0f0fff0f0f0ff;
0x1f0f0f0fff0f0f0fff0f0f0fff0f0f0fff0f0f0fff0f0f0fff0f0f0fff0f0f0ff;
0x1f0f0f0fff0f0f0fff0f0f0fff0f0f0fff0f0f0fff0f0f0fff0f0f0fff0f0f0ff;
0x1f0f0f0fff0f0f0fff0f0f0fff0f0f0fff0f0f0fff0f0f0fff0f0f0fff0f0f0ff;
0x1f0f0f0fff0f0f0fff0f0f0fff0f0f0fff0f0f0fff0f0f0fff0f0f0fff0f0f0ff;
0x1f0f0f0fff0f0f0fff0f0f0fff0f0f0fff0f0f0fff0f0f0fff0f0f0fff0f0f0ff;
0x1f0f0f0fff0f0f0fff0f0f0fff0f0f0fff0f0f0fff0f0f0fff0f0f0fff0f0f0ff;
0x1f0f0f0fff0f0f0fff0f0f0fff0f0f0fff0f0f0fff0f0f0fff0f0f0fff0f0f0ff;
0x1f0f0f0fff0f0f0fff0f0f0fff0f0f0fff0f0f0fff0f0f0fff0f0f0fff0f0f0ff;
0x1f0f0f0fff0f0f0fff0f0f0fff0f0f0fff0f0f0fff0f0f0fff0f0f0fff0f0f0ff;
0x1f0f0f0fff0f0f0fff0f0f0fff0f0f0fff0f0f0fff0f0f0fff0f0f0fff0f0f0ff;
0x1f0f0f0fff0f0f0fff0f0f0fff0f0f0fff0f0f0fff0f0f0fff0f0f0fff0f0f0ff;
0x1f0f0f0fff0f0f0fff0f0f0fff0f0f0fff0f0f0fff0f0f0fff0f0f0fff0f0f0ff;
0x1f0f0f0fff0f0f0fff0f0f0fff0f0f0fff0f0f0fff0f0f0ff0000000000000000;
0x10000000000000000000000000000000000000000000000000000000000000000;
0x10000000000000000000000000000000000000000000000000000000000000000;
0x10000000000000000000000000000000000000000000000000000000000000000;
0x10000000000000000000000000000000000000000000000000000000000000000;
0x10000000000000000000000000000000000000000000000000000000000000000;
0x10000000000000000000000000000000000000000000000000000000000000000;
0x10000000000000000].
(** redeclipse/prefabs/spacestation/station_ring_vertical.vox (12760 bytes) *)
Definition vox_spacestation_station_ring_vertical : list Z := [
0x1564f5820960000004d41494e00000000c431000053495a450c00000000000000;
0x128000000080000002800000058595a49942d000000000000640b000011000001;
0x11200000113000001140000011500000116000001100100011101000116010001;
0x11701000110020001170200011003000117030001100400011704000110050001;
0x11705000110060001110600011606000117060001110700011207000113070001;
0x11407000115070001160700011000010111000101120001011300010114000101;
0x11500010116000101170001010b0101010c0101010d0101010e0101010f010101;
0x118010101190101011a0101011b0101011c0101010b0201010c0201010d020101;
0x10e0201010f02010118020101190201011a0201011b0201011c0201010b030101;
0x10c0301010d0301010e0301010f03010118030101190301011a0301011b030101;
0x11c0301010b0401010c0401010d0401010e0401010f0401011804010119040101;
0x11a0401011b0401011c0401010b0501010c0501010d0501010e0501010f050101;
0x118050101190501011a0501011b0501011c0501010b0601010c0601010d060101;
0x10e0601010f06010118060101190601011a0601011b0601011c0601010c070101;
0x10d0701010e0701010f0701011007010111070101120701011307010114070101;
0x115070101160701011707010118070101190701011a0701011b0701010c000201;
0x10d0002010e0002010f0002011000020111000201120002011300020114000201;
0x115000201160002011700020118000201190002011a0002011b00020109010201;
0x10a0102010b0102011c0102011d0102011e010201090202010a0202010b020201;
0x11c0202011d0202011e020201090302010a0302010b0302011c0302011d030201;
0x11e030201090402010a0402010b0402011c0402011d0402011e04020109050201;
0x10a0502010b0502011c0502011d0502011e050201090602010a0602010b060201;
0x11c0602011d0602011e0602010a0702010b0702010c0702010d0702010e070201;
0x10f07020110070201110702011207020113070201140702011507020116070201;
0x11707020118070201190702011a0702011b0702011c0702011d0702010a000301;
0x10b0003010c0003010d0003010e0003010f000301100003011100030112000301;
0x1130003011400030115000301160003011700030118000301190003011a000301;
0x11b0003011c0003011d00030108010301090103011e0103011f01030108020301;
0x1090203011e0203011f02030108030301090303011e0303011f03030108040301;
0x1090403011e0403011f04030108050301090503011e0503011f05030108060301;
0x1090603011e0603011f060301090703010a0703010b0703010c0703010d070301;
0x10e0703010f070301100703011107030112070301130703011407030115070301;
0x1160703011707030118070301190703011a0703011b0703011c0703011d070301;
0x11e070301090004010a0004010b0004010c0004010d0004010e0004010f000401;
0x11000040111000401120004011300040114000401150004011600040117000401;
0x118000401190004011a0004011b0004011c0004011d0004011e00040106010401;
0x107010401080104011f0104012001040121010401060204010702040108020401;
0x11f02040120020401210204010603040107030401080304011f03040120030401;
0x1210304010604040107040401080404011f040401200404012104040106050401;
0x107050401080504011f0504012005040121050401060604010706040108060401;
0x11f06040120060401210604010707040108070401090704010a0704010b070401;
0x10c0704010d0704010e0704010f07040110070401110704011207040113070401;
0x11407040115070401160704011707040118070401190704011a0704011b070401;
0x11c0704011d0704011e0704011f07040120070401070005010800050109000501;
0x10a0005010b0005010c0005010d0005010e0005010f0005011000050111000501;
0x11200050113000501140005011500050116000501170005011800050119000501;
0x11a0005011b0005011c0005011d0005011e0005011f0005012000050105010501;
0x10601050121010501220105010502050106020501210205012202050105030501;
0x10603050121030501220305010504050106040501210405012204050105050501;
0x10605050121050501220505010506050106060501210605012206050106070501;
0x10707050108070501090705010a0705010b0705010c0705010d0705010e070501;
0x10f07050110070501110705011207050113070501140705011507050116070501;
0x11707050118070501190705011a0705011b0705011c0705011d0705011e070501;
0x11f0705012007050121070501060006010700060108000601090006010a000601;
0x10b0006010c0006010d0006010e0006010f000601100006011100060112000601;
0x1130006011400060115000601160006011700060118000601190006011a000601;
0x11b0006011c0006011d0006011e0006011f000601200006012100060104010601;
0x10501060122010601230106010402060105020601220206012302060104030601;
0x10503060122030601230306010404060105040601220406012304060104050601;
0x10505060122050601230506010406060105060601220606012306060105070601;
0x1060706010707060108070601090706010a0706010b0706010c0706010d070601;
0x10e0706010f070601100706011107060112070601130706011407060115070601;
0x1160706011707060118070601190706011a0706011b0706011c0706011d070601;
0x11e0706011f070601200706012107060122070601050007010600070107000701;
0x108000701090007010a0007010b0007010c0007010d0007010e0007010f000701;
0x1100007011700070118000701190007011a0007011b0007011c0007011d000701;
0x11e0007011f000701200007012100070122000701040107011101070112010701;
0x11301070114010701150107011601070123010701040207011102070112020701;
0x11302070114020701150207011602070123020701040307011103070112030701;
0x11303070114030701150307011603070123030701040407011104070112040701;
0x11304070114040701150407011604070123040701040507011105070112050701;
0x11305070114050701150507011605070123050701040607011106070112060701;
0x11306070114060701150607011606070123060701040707010507070106070701;
0x10707070108070701090707010a0707010b0707010c0707010d0707010e070701;
0x10f07070110070701110707011207070113070701140707011507070116070701;
0x11707070118070701190707011a0707011b0707011c0707011d0707011e070701;
0x11f07070120070701210707012207070123070701050008010600080107000801;
0x108000801090008010a0008010b0008010c0008010d0008011a0008011b000801;
0x11c0008011d0008011e0008011f00080120000801210008012200080103010801;
0x1040108010e0108010f0108011001080111010801160108011701080118010801;
0x119010801230108012401080103020801040208010e0208010f02080110020801;
0x11102080116020801170208011802080119020801230208012402080103030801;
0x1040308010e0308010f0308011003080111030801160308011703080118030801;
0x119030801230308012403080103040801040408010e0408010f04080110040801;
0x11104080116040801170408011804080119040801230408012404080103050801;
0x1040508010e0508010f0508011005080111050801160508011705080118050801;
0x119050801230508012405080103060801040608010e0608010f06080110060801;
0x11106080116060801170608011806080119060801230608012406080104070801;
0x105070801060708010707080108070801090708010a0708010b0708010c070801;
0x10d0708010e0708010f070801100708011707080118070801190708011a070801;
0x11b0708011c0708011d0708011e0708011f070801200708012107080122070801;
0x1230708010400090105000901060009010700090108000901090009010a000901;
0x10b0009010c0009011b0009011c0009011d0009011e0009011f00090120000901;
0x121000901220009012300090102010901030109010d0109010e01090119010901;
0x11a010901240109012501090102020901030209010d0209010e02090119020901;
0x11a020901240209012502090102030901030309010d0309010e03090119030901;
0x11a030901240309012503090102040901030409010d0409010e04090119040901;
0x11a040901240409012504090102050901030509010d0509010e05090119050901;
0x11a050901240509012505090102060901030609010d0609010e06090119060901;
0x11a06090124060901250609010307090104070901050709010607090107070901;
0x108070901090709010a0709010b0709010c0709010d0709011a0709011b070901;
0x11c0709011d0709011e0709011f07090120070901210709012207090123070901;
0x12407090103000a0104000a0105000a0106000a0107000a0108000a0109000a01;
0x10a000a010b000a011c000a011d000a011e000a011f000a0120000a0121000a01;
0x122000a0123000a0124000a0102010a010c010a010d010a011a010a011b010a01;
0x125010a0102020a010c020a010d020a011a020a011b020a0125020a0102030a01;
0x10c030a010d030a011a030a011b030a0125030a0102040a010c040a010d040a01;
0x11a040a011b040a0125040a0102050a010c050a010d050a011a050a011b050a01;
0x125050a0102060a010c060a010d060a011a060a011b060a0125060a0102070a01;
0x103070a0104070a0105070a0106070a0107070a0108070a0109070a010a070a01;
0x10b070a010c070a011b070a011c070a011d070a011e070a011f070a0120070a01;
0x121070a0122070a0123070a0124070a0125070a0103000b0104000b0105000b01;
0x106000b0107000b0108000b0109000b010a000b011d000b011e000b011f000b01;
0x120000b0121000b0122000b0123000b0124000b0101010b0102010b010b010b01;
0x10c010b011b010b011c010b0125010b0126010b0101020b0102020b010b020b01;
0x10c020b011b020b011c020b0125020b0126020b0101030b0102030b010b030b01;
0x10c030b011b030b011c030b0125030b0126030b0101040b0102040b010b040b01;
0x10c040b011b040b011c040b0125040b0126040b0101050b0102050b010b050b01;
0x10c050b011b050b011c050b0125050b0126050b0101060b0102060b010b060b01;
0x10c060b011b060b011c060b0125060b0126060b0102070b0103070b0104070b01;
0x105070b0106070b0107070b0108070b0109070b010a070b010b070b011c070b01;
0x11d070b011e070b011f070b0120070b0121070b0122070b0123070b0124070b01;
0x125070b0102000c0103000c0104000c0105000c0106000c0107000c0108000c01;
0x109000c011e000c011f000c0120000c0121000c0122000c0123000c0124000c01;
0x125000c0101010c010a010c010b010c011c010c011d010c0126010c0101020c01;
0x10a020c010b020c011c020c011d020c0126020c0101030c010a030c010b030c01;
0x11c030c011d030c0126030c0101040c010a040c010b040c011c040c011d040c01;
0x126040c0101050c010a050c010b050c011c050c011d050c0126050c0101060c01;
0x10a060c010b060c011c060c011d060c0126060c0101070c0102070c0103070c01;
0x104070c0105070c0106070c0107070c0108070c0109070c010a070c011d070c01;
0x11e070c011f070c0120070c0121070c0122070c0123070c0124070c0125070c01;
0x126070c0102000d0103000d0104000d0105000d0106000d0107000d0108000d01;
0x11f000d0120000d0121000d0122000d0123000d0124000d0125000d0101010d01;
0x109010d010a010d011d010d011e010d0126010d0101020d0109020d010a020d01;
0x11d020d011e020d0126020d0101030d0109030d010a030d011d030d011e030d01;
0x126030d0101040d0109040d010a040d011d040d011e040d0126040d0101050d01;
0x109050d010a050d011d050d011e050d0126050d0101060d0109060d010a060d01;
0x11d060d011e060d0126060d0101070d0102070d0103070d0104070d0105070d01;
0x106070d0107070d0108070d0109070d011e070d011f070d0120070d0121070d01;
0x122070d0123070d0124070d0125070d0126070d0102000e0103000e0104000e01;
0x105000e0106000e0107000e0120000e0121000e0122000e0123000e0124000e01;
0x125000e0101010e0108010e0109010e011e010e011f010e0126010e0101020e01;
0x108020e0109020e011e020e011f020e0126020e0101030e0108030e0109030e01;
0x11e030e011f030e0126030e0101040e0108040e0109040e011e040e011f040e01;
0x126040e0101050e0108050e0109050e011e050e011f050e0126050e0101060e01;
0x108060e0109060e011e060e011f060e0126060e0101070e0102070e0103070e01;
0x104070e0105070e0106070e0107070e0108070e011f070e0120070e0121070e01;
0x122070e0123070e0124070e0125070e0126070e0102000f0103000f0104000f01;
0x105000f0106000f0107000f0120000f0121000f0122000f0123000f0124000f01;
0x125000f0101010f0108010f011f010f0126010f0101020f0108020f011f020f01;
0x126020f0101030f0108030f011f030f0126030f0101040f0108040f011f040f01;
0x126040f0101050f0108050f011f050f0126050f0101060f0108060f011f060f01;
0x126060f0101070f0102070f0103070f0104070f0105070f0106070f0107070f01;
0x108070f011f070f0120070f0121070f0122070f0123070f0124070f0125070f01;
0x126070f0101001001020010010300100104001001050010010600100107001001;
0x12000100121001001220010012300100124001001250010012600100127001001;
0x10001100101011001020110010301100104011001050110010601100107011001;
0x1080110011f011001200110012101100122011001230110012401100125011001;
0x12601100127011001000210010102100102021001030210010402100105021001;
0x10602100107021001080210011f02100120021001210210012202100123021001;
0x12402100125021001260210012702100100031001010310010203100103031001;
0x104031001050310010603100107031001080310011f0310012003100121031001;
0x12203100123031001240310012503100126031001270310010004100101041001;
0x1020410010304100104041001050410010604100107041001080410011f041001;
0x12004100121041001220410012304100124041001250410012604100127041001;
0x10005100101051001020510010305100104051001050510010605100107051001;
0x1080510011f051001200510012105100122051001230510012405100125051001;
0x12605100127051001000610010106100102061001030610010406100105061001;
0x10606100107061001080610011f06100120061001210610012206100123061001;
0x12406100125061001260610012706100101071001020710010307100104071001;
0x1050710010607100107071001080710011f071001200710012107100122071001;
0x12307100124071001250710012607100127071001000011010100110102001101;
0x10300110104001101050011010600110121001101220011012300110124001101;
0x12500110126001101270011010001110107011101080111011f01110120011101;
0x12701110107021101080211011f0211012002110107031101080311011f031101;
0x12003110107041101080411011f0411012004110107051101080511011f051101;
0x1200511010006110107061101080611011f061101200611012706110100071101;
0x10107110102071101030711010407110105071101060711010707110120071101;
0x12107110122071101230711012407110125071101260711012707110100001201;
0x10100120102001201030012010400120105001201060012012100120122001201;
0x12300120124001201250012012600120127001201070112012001120107021201;
0x12002120107031201200312010704120120041201070512012005120107061201;
0x12006120100071201010712010207120103071201040712010507120106071201;
0x10707120120071201210712012207120123071201240712012507120126071201;
0x12707120100001301010013010200130103001301040013010500130106001301;
0x12100130122001301230013012400130125001301260013012700130107011301;
0x12001130107021301200213010703130120031301070413012004130107051301;
0x12005130107061301200613010007130101071301020713010307130104071301;
0x10507130106071301070713012007130121071301220713012307130124071301;
0x12507130126071301270713010000140101001401020014010300140104001401;
0x10500140106001401210014012200140123001401240014012500140126001401;
0x12700140107011401200114010702140120021401070314012003140107041401;
0x12004140107051401200514010706140120061401000714010107140102071401;
0x10307140104071401050714010607140107071401200714012107140122071401;
0x12307140124071401250714012607140127071401000015010100150102001501;
0x10300150104001501050015010600150121001501220015012300150124001501;
0x12500150126001501270015010701150120011501070215012002150107031501;
0x12003150107041501200415010705150120051501070615012006150100071501;
0x10107150102071501030715010407150105071501060715010707150120071501;
0x12107150122071501230715012407150125071501260715012707150100001601;
0x10100160102001601030016010400160105001601060016012100160122001601;
0x12300160124001601250016012600160127001601000116010701160108011601;
0x11f011601200116012701160107021601080216011f0216012002160107031601;
0x1080316011f0316012003160107041601080416011f0416012004160107051601;
0x1080516011f051601200516010006160107061601080616011f06160120061601;
0x12706160100071601010716010207160103071601040716010507160106071601;
0x10707160120071601210716012207160123071601240716012507160126071601;
0x12707160101001701020017010300170104001701050017010600170107001701;
0x12000170121001701220017012300170124001701250017012600170127001701;
0x100011701080117011f0117012701170100021701080217011f02170127021701;
0x100031701080317011f0317012703170100041701080417011f04170127041701;
0x100051701080517011f0517012705170100061701080617011f06170127061701;
0x10107170102071701030717010407170105071701060717010707170108071701;
0x11f07170120071701210717012207170123071701240717012507170126071701;
0x12707170102001801030018010400180105001801060018010700180120001801;
0x1210018012200180123001801240018012500180101011801080118011f011801;
0x12601180101021801080218011f0218012602180101031801080318011f031801;
0x12603180101041801080418011f0418012604180101051801080518011f051801;
0x12605180101061801080618011f06180126061801010718010207180103071801;
0x104071801050718010607180107071801080718011f0718012007180121071801;
0x12207180123071801240718012507180126071801020019010300190104001901;
0x10500190106001901070019012000190121001901220019012300190124001901;
0x1250019010101190108011901090119011e0119011f0119012601190101021901;
0x108021901090219011e0219011f02190126021901010319010803190109031901;
0x11e0319011f031901260319010104190108041901090419011e0419011f041901;
0x1260419010105190108051901090519011e0519011f0519012605190101061901;
0x108061901090619011e0619011f06190126061901010719010207190103071901;
0x104071901050719010607190107071901080719011f0719012007190121071901;
0x1220719012307190124071901250719012607190102001a0103001a0104001a01;
0x105001a0106001a0107001a0108001a011f001a0120001a0121001a0122001a01;
0x123001a0124001a0125001a0101011a0109011a010a011a011d011a011e011a01;
0x126011a0101021a0109021a010a021a011d021a011e021a0126021a0101031a01;
0x109031a010a031a011d031a011e031a0126031a0101041a0109041a010a041a01;
0x11d041a011e041a0126041a0101051a0109051a010a051a011d051a011e051a01;
0x126051a0101061a0109061a010a061a011d061a011e061a0126061a0101071a01;
0x102071a0103071a0104071a0105071a0106071a0107071a0108071a0109071a01;
0x11e071a011f071a0120071a0121071a0122071a0123071a0124071a0125071a01;
0x126071a0102001b0103001b0104001b0105001b0106001b0107001b0108001b01;
0x109001b011e001b011f001b0120001b0121001b0122001b0123001b0124001b01;
0x125001b0101011b010a011b010b011b011c011b011d011b0126011b0101021b01;
0x10a021b010b021b011c021b011d021b0126021b0101031b010a031b010b031b01;
0x11c031b011d031b0126031b0101041b010a041b010b041b011c041b011d041b01;
0x126041b0101051b010a051b010b051b011c051b011d051b0126051b0101061b01;
0x10a061b010b061b011c061b011d061b0126061b0101071b0102071b0103071b01;
0x104071b0105071b0106071b0107071b0108071b0109071b010a071b011d071b01;
0x11e071b011f071b0120071b0121071b0122071b0123071b0124071b0125071b01;
0x126071b0103001c0104001c0105001c0106001c0107001c0108001c0109001c01;
0x10a001c011d001c011e001c011f001c0120001c0121001c0122001c0123001c01;
0x124001c0101011c0102011c010b011c010c011c011b011c011c011c0125011c01;
0x126011c0101021c0102021c010b021c010c021c011b021c011c021c0125021c01;
0x126021c0101031c0102031c010b031c010c031c011b031c011c031c0125031c01;
0x126031c0101041c0102041c010b041c010c041c011b041c011c041c0125041c01;
0x126041c0101051c0102051c010b051c010c051c011b051c011c051c0125051c01;
0x126051c0101061c0102061c010b061c010c061c011b061c011c061c0125061c01;
0x126061c0102071c0103071c0104071c0105071c0106071c0107071c0108071c01;
0x109071c010a071c010b071c011c071c011d071c011e071c011f071c0120071c01;
0x121071c0122071c0123071c0124071c0125071c0103001d0104001d0105001d01;
0x106001d0107001d0108001d0109001d010a001d010b001d011c001d011d001d01;
0x11e001d011f001d0120001d0121001d0122001d0123001d0124001d0102011d01;
0x10c011d010d011d011a011d011b011d0125011d0102021d010c021d010d021d01;
0x11a021d011b021d0125021d0102031d010c031d010d031d011a031d011b031d01;
0x125031d0102041d010c041d010d041d011a041d011b041d0125041d0102051d01;
0x10c051d010d051d011a051d011b051d0125051d0102061d010c061d010d061d01;
0x11a061d011b061d0125061d0102071d0103071d0104071d0105071d0106071d01;
0x107071d0108071d0109071d010a071d010b071d010c071d011b071d011c071d01;
0x11d071d011e071d011f071d0120071d0121071d0122071d0123071d0124071d01;
0x125071d0104001e0105001e0106001e0107001e0108001e0109001e010a001e01;
0x10b001e010c001e011b001e011c001e011d001e011e001e011f001e0120001e01;
0x121001e0122001e0123001e0102011e0103011e010d011e010e011e0119011e01;
0x11a011e0124011e0125011e0102021e0103021e010d021e010e021e0119021e01;
0x11a021e0124021e0125021e0102031e0103031e010d031e010e031e0119031e01;
0x11a031e0124031e0125031e0102041e0103041e010d041e010e041e0119041e01;
0x11a041e0124041e0125041e0102051e0103051e010d051e010e051e0119051e01;
0x11a051e0124051e0125051e0102061e0103061e010d061e010e061e0119061e01;
0x11a061e0124061e0125061e0103071e0104071e0105071e0106071e0107071e01;
0x108071e0109071e010a071e010b071e010c071e010d071e011a071e011b071e01;
0x11c071e011d071e011e071e011f071e0120071e0121071e0122071e0123071e01;
0x124071e0105001f0106001f0107001f0108001f0109001f010a001f010b001f01;
0x10c001f010d001f011a001f011b001f011c001f011d001f011e001f011f001f01;
0x120001f0121001f0122001f0103011f0104011f010e011f010f011f0110011f01;
0x111011f0116011f0117011f0118011f0119011f0123011f0124011f0103021f01;
0x104021f010e021f010f021f0110021f0111021f0116021f0117021f0118021f01;
0x119021f0123021f0124021f0103031f0104031f010e031f010f031f0110031f01;
0x111031f0116031f0117031f0118031f0119031f0123031f0124031f0103041f01;
0x104041f010e041f010f041f0110041f0111041f0116041f0117041f0118041f01;
0x119041f0123041f0124041f0103051f0104051f010e051f010f051f0110051f01;
0x111051f0116051f0117051f0118051f0119051f0123051f0124051f0103061f01;
0x104061f010e061f010f061f0110061f0111061f0116061f0117061f0118061f01;
0x119061f0123061f0124061f0104071f0105071f0106071f0107071f0108071f01;
0x109071f010a071f010b071f010c071f010d071f010e071f010f071f0110071f01;
0x117071f0118071f0119071f011a071f011b071f011c071f011d071f011e071f01;
0x11f071f0120071f0121071f0122071f0123071f01050020010600200107002001;
0x108002001090020010a0020010b0020010c0020010d0020010e0020010f002001;
0x1100020011700200118002001190020011a0020011b0020011c0020011d002001;
0x11e0020011f002001200020012100200122002001040120011101200112012001;
0x11301200114012001150120011601200123012001040220011102200112022001;
0x11302200114022001150220011602200123022001040320011103200112032001;
0x11303200114032001150320011603200123032001040420011104200112042001;
0x11304200114042001150420011604200123042001040520011105200112052001;
0x11305200114052001150520011605200123052001040620011106200112062001;
0x11306200114062001150620011606200123062001040720010507200106072001;
0x10707200108072001090720010a0720010b0720010c0720010d0720010e072001;
0x10f07200110072001110720011207200113072001140720011507200116072001;
0x11707200118072001190720011a0720011b0720011c0720011d0720011e072001;
0x11f07200120072001210720012207200123072001060021010700210108002101;
0x1090021010a0021010b0021010c0021010d0021010e0021010f00210110002101;
0x11100210112002101130021011400210115002101160021011700210118002101;
0x1190021011a0021011b0021011c0021011d0021011e0021011f00210120002101;
0x12100210104012101050121012201210123012101040221010502210122022101;
0x12302210104032101050321012203210123032101040421010504210122042101;
0x12304210104052101050521012205210123052101040621010506210122062101;
0x12306210105072101060721010707210108072101090721010a0721010b072101;
0x10c0721010d0721010e0721010f07210110072101110721011207210113072101;
0x11407210115072101160721011707210118072101190721011a0721011b072101;
0x11c0721011d0721011e0721011f07210120072101210721012207210107002201;
0x108002201090022010a0022010b0022010c0022010d0022010e0022010f002201;
0x11000220111002201120022011300220114002201150022011600220117002201;
0x118002201190022011a0022011b0022011c0022011d0022011e0022011f002201;
0x12000220105012201060122012101220122012201050222010602220121022201;
0x12202220105032201060322012103220122032201050422010604220121042201;
0x12204220105052201060522012105220122052201050622010606220121062201;
0x122062201060722010707220108072201090722010a0722010b0722010c072201;
0x10d0722010e0722010f0722011007220111072201120722011307220114072201;
0x115072201160722011707220118072201190722011a0722011b0722011c072201;
0x11d0722011e0722011f0722012007220121072201090023010a0023010b002301;
0x10c0023010d0023010e0023010f00230110002301110023011200230113002301;
0x11400230115002301160023011700230118002301190023011a0023011b002301;
0x11c0023011d0023011e0023010601230107012301080123011f01230120012301;
0x1210123010602230107022301080223011f022301200223012102230106032301;
0x107032301080323011f0323012003230121032301060423010704230108042301;
0x11f04230120042301210423010605230107052301080523011f05230120052301;
0x1210523010606230107062301080623011f062301200623012106230107072301;
0x108072301090723010a0723010b0723010c0723010d0723010e0723010f072301;
0x11007230111072301120723011307230114072301150723011607230117072301;
0x118072301190723011a0723011b0723011c0723011d0723011e0723011f072301;
0x1200723010a0024010b0024010c0024010d0024010e0024010f00240110002401;
0x11100240112002401130024011400240115002401160024011700240118002401;
0x1190024011a0024011b0024011c0024011d00240108012401090124011e012401;
0x11f01240108022401090224011e0224011f02240108032401090324011e032401;
0x11f03240108042401090424011e0424011f04240108052401090524011e052401;
0x11f05240108062401090624011e0624011f062401090724010a0724010b072401;
0x10c0724010d0724010e0724010f07240110072401110724011207240113072401;
0x11407240115072401160724011707240118072401190724011a0724011b072401;
0x11c0724011d0724011e0724010c0025010d0025010e0025010f00250110002501;
0x11100250112002501130025011400250115002501160025011700250118002501;
0x1190025011a0025011b002501090125010a0125010b0125011c0125011d012501;
0x11e012501090225010a0225010b0225011c0225011d0225011e02250109032501;
0x10a0325010b0325011c0325011d0325011e032501090425010a0425010b042501;
0x11c0425011d0425011e042501090525010a0525010b0525011c0525011d052501;
0x11e052501090625010a0625010b0625011c0625011d0625011e0625010a072501;
0x10b0725010c0725010d0725010e0725010f072501100725011107250112072501;
0x1130725011407250115072501160725011707250118072501190725011a072501;
0x11b0725011c0725011d0725011000260111002601120026011300260114002601;
0x11500260116002601170026010b0126010c0126010d0126010e0126010f012601;
0x118012601190126011a0126011b0126011c0126010b0226010c0226010d022601;
0x10e0226010f02260118022601190226011a0226011b0226011c0226010b032601;
0x10c0326010d0326010e0326010f03260118032601190326011a0326011b032601;
0x11c0326010b0426010c0426010d0426010e0426010f0426011804260119042601;
0x11a0426011b0426011c0426010b0526010c0526010d0526010e0526010f052601;
0x118052601190526011a0526011b0526011c0526010b0626010c0626010d062601;
0x10e0626010f06260118062601190626011a0626011b0626011c0626010c072601;
0x10d0726010e0726010f0726011007260111072601120726011307260114072601;
0x115072601160726011707260118072601190726011a0726011b07260111002701;
0x11200270113002701140027011500270116002701100127011101270116012701;
0x11701270110022701170227011003270117032701100427011704270110052701;
0x11705270110062701110627011606270117062701110727011207270113072701;
0x114072701150727011607270152474241000400000000000000000000f0f0f0ff;
0x1f0f0f0fff0f0f0fff0f0f0fff0f0f0fff0f0f0fff0f0f0fff0f0f0fff0f0f0ff;
0x1f0f0f0fff0f0f0fff0f0f0fff0f0f0fff0f0f0fff0f0f0fff0f0f0fff0f0f0ff;
0x1f0f0f0fff0f0f0fff0f0f0fff0f0f0fff0f0f0fff0f0f0fff0f0f0fff0f0f0ff;
0x1f0f0f0fff0f0f0fff0f0f0fff0f0f0fff0f0f0fff0f0f0fff0f0f0fff0f0f0ff;
0x1f0f0f0fff0f0f0fff0f0f0fff0f0f0fff0f0f0fff0f0f0fff0f0f0fff0f0f0ff;
0x1f0f0f0fff0f0f0fff0f0f0fff0f0f0fff0f0f0fff0f0f0fff0f0f0fff0f0f0ff;
0x1f0f0f0fff0f0f0fff0f0f0fff0f0f0fff0f0f0fff0f0f0fff0f0f0fff0f0f0ff;
0x1f0f0f0fff0f0f0fff0f0f0fff0f0f0fff0f0f0fff0f0f0fff0f0f0fff0f0f0ff;
0x1f0f0f0fff0f0f0fff0f0f0fff0f0f0fff0f0f0fff0f0f0fff0f0f0fff0f0f0ff;
0x1f0f0f0fff0f0f0fff0f0f0fff0f0f0fff0f0f0fff0f0f0fff0f0f0fff0f0f0ff;
0x1f0f0f0fff0f0f0fff0f0f0fff0f0f0fff0f0f0fff0f0f0fff0f0f0fff0f0f0ff;
0x1f0f0f0fff0f0f0fff0f0f0fff0f0f0fff0f0f0fff0f0f0fff0f0f0fff0f0f0ff;
0x1f0f0f0fff0f0f0fff0f0f0fff0f0f0fff0f0f0fff0f0f0fff0f0f0fff0f0f0ff;
0x1f0f0f0fff0f0f0fff0f0f0fff0f0f0fff0f0f0fff0f0f0fff0f0f0fff0f0f0ff;
0x1f0f0f0fff0f0f0fff0f0f0fff0f0f0fff0f0f0fff0f0f0fff0f0f0fff0f0f0ff;
0x1f0f0f0fff0f0f0fff0f0f0fff0f0f0fff0f0f0fff0f0f0fff0f0f0fff0f0f0ff;
0x1f0f0f0fff0f0f0fff0f0f0fff0f0f0fff0f0f0fff0f0f0fff0f0f0fff0f0f0ff;
0x1f0f0f0fff0f0f0fff0f0f0fff0f0f0fff0f0f0fff0f0f0fff0f0f0fff0f0f0ff;
0x1f0f0f0fff0f0f0fff0f0f0fff0f0f0fff0f0f0fff0f0f0fff0f0f0fff0f0f0ff;
0x1f0f0f0fff0f0f0fff0f0f0fff0f0f0fff0f0f0fff0f0f0fff0f0f0fff0f0f0ff;
0x1f0f0f0fff0f0f0fff0f0f0fff0f0f0fff0f0f0fff0f0f0fff0f0f0fff0f0f0ff;
0x1f0f0f0fff0f0f0fff0f0f0fff0f0f0fff0f0f0fff0f0f0fff0f0f0fff0f0f0ff;
0x1f0f0f0fff0f0f0fff0f0f0fff0f0f0fff0f0f0fff0f0f0fff0f0f0fff0f0f0ff;
0x1f0f0f0fff0f0f0fff0f0f0fff0f0f0fff0f0f0fff0f0f0fff0f0f0fff0f0f0ff;
0x1f0f0f0fff0f0f0fff0f0f0fff0f0f0fff0f0f0fff0f0f0fff0f0f0fff0f0f0ff;
0x1f0f0f0fff0f0f0ff000000000000000000000000000000000000000000000000;
0x10000000000000000000000000000000000000000000000000000000000000000;
0x10000000000000000000000000000000000000000000000000000000000000000;
0x10000000000000000000000000000000000000000000000000000000000000000;
0x10000000000000000000000000000000000000000000000000000000000000000;
0x10000000000000000000000000000000000000000000000000000000000000000;
0x1000000000000000000000000000000000000000000000000].
(** redeclipse/prefabs/spacestation/station_sbend.vox (3528 bytes) *)
Definition vox_spacestation_station_sbend : list Z := [
0x1564f5820960000004d41494e00000000b40d000053495a450c00000000000000;
0x110000000100000000800000058595a4984090000000000006002000002020001;
0x1030200010402000105020001060200010702000108020001090200010a020001;
0x10b0200010c0200010d0200010203000103030001040300010503000106030001;
0x10703000108030001090300010a0300010b0300010c0300010d03000102040001;
0x1030400010404000105040001060400010704000108040001090400010a040001;
0x10b0400010c0400010d0400010205000103050001040500010505000106050001;
0x10705000108050001090500010a0500010b0500010c0500010d05000102060001;
0x10306000104060001050600010a0600010b0600010c0600010d06000102070001;
0x10307000104070001050700010a0700010b0700010c0700010d07000102080001;
0x10308000104080001050800010a0800010b0800010c0800010d08000102090001;
0x10309000104090001050900010a0900010b0900010c0900010d090001000a0001;
0x1010a0001020a0001030a0001040a0001050a00010a0a00010b0a00010c0a0001;
0x10d0a00010e0a00010f0a0001000b0001010b0001020b0001030b0001040b0001;
0x1050b00010a0b00010b0b00010c0b00010d0b00010e0b00010f0b0001000c0001;
0x1010c0001020c0001030c0001040c0001050c00010a0c00010b0c00010c0c0001;
0x10d0c00010e0c00010f0c0001000d0001010d0001020d0001030d0001040d0001;
0x1050d00010a0d00010b0d00010c0d00010d0d00010e0d00010f0d000101010101;
0x10201010103010101040101010501010106010101070101010801010109010101;
0x10a0101010b0101010c0101010d0101010e010101010201010e02010101030101;
0x10e030101010401010e040101010501010e050101010601010606010107060101;
0x108060101090601010e0601010107010106070101090701010e07010101080101;
0x106080101090801010e080101000901010109010106090101090901010e090101;
0x10f090101060a0101090a0101060b0101090b0101060c0101090c0101060d0101;
0x1090d0101000e0101010e0101020e0101030e0101040e0101050e0101060e0101;
0x1090e01010a0e01010b0e01010c0e01010d0e01010e0e01010f0e010102000201;
0x1030002010400020105000201060002010700020108000201090002010a000201;
0x10b0002010c0002010d000201010102010e010201000202010f02020100030201;
0x10f030201000402010f040201000502010f050201000602010f06020100070201;
0x107070201080702010f0702010008020107080201080802010f08020107090201;
0x108090201070a0201080a0201070b0201080b0201070c0201080c0201070d0201;
0x1080d0201060e0201090e0201000f0201010f0201020f0201030f0201040f0201;
0x1050f02010a0f02010b0f02010c0f02010d0f02010e0f02010f0f020102000301;
0x1030003010400030105000301060003010700030108000301090003010a000301;
0x10b0003010c0003010d000301010103010e010301000203010f02030100030301;
0x10f030301000403010f040301000503010f050301000603010f06030100070301;
0x107070301080703010f0703010008030107080301080803010f08030107090301;
0x108090301070a0301080a0301070b0301080b0301070c0301080c0301070d0301;
0x1080d0301060e0301090e0301000f0301010f0301020f0301030f0301040f0301;
0x1050f03010a0f03010b0f03010c0f03010d0f03010e0f03010f0f030102000401;
0x1030004010400040105000401060004010700040108000401090004010a000401;
0x10b0004010c0004010d000401010104010e010401000204010f02040100030401;
0x10f030401000404010f040401000504010f050401000604010f06040100070401;
0x107070401080704010f0704010008040107080401080804010f08040107090401;
0x108090401070a0401080a0401070b0401080b0401070c0401080c0401070d0401;
0x1080d0401060e0401090e0401000f0401010f0401020f0401030f0401040f0401;
0x1050f04010a0f04010b0f04010c0f04010d0f04010e0f04010f0f040102000501;
0x1030005010400050105000501060005010700050108000501090005010a000501;
0x10b0005010c0005010d000501010105010e010501000205010f02050100030501;
0x10f030501000405010f040501000505010f050501000605010f06050100070501;
0x107070501080705010f0705010008050107080501080805010f08050107090501;
0x108090501070a0501080a0501070b0501080b0501070c0501080c0501070d0501;
0x1080d0501060e0501090e0501000f0501010f0501020f0501030f0501040f0501;
0x1050f05010a0f05010b0f05010c0f05010d0f05010e0f05010f0f050101010601;
0x10201060103010601040106010501060106010601070106010801060109010601;
0x10a0106010b0106010c0106010d0106010e010601010206010e02060101030601;
0x10e030601010406010e040601010506010e050601010606010606060107060601;
0x108060601090606010e0606010107060106070601090706010e07060101080601;
0x106080601090806010e080601000906010109060106090601090906010e090601;
0x10f090601060a0601090a0601060b0601090b0601060c0601090c0601060d0601;
0x1090d0601000e0601010e0601020e0601030e0601040e0601050e0601060e0601;
0x1090e06010a0e06010b0e06010c0e06010d0e06010e0e06010f0e060102020701;
0x1030207010402070105020701060207010702070108020701090207010a020701;
0x10b0207010c0207010d0207010203070103030701040307010503070106030701;
0x10703070108030701090307010a0307010b0307010c0307010d03070102040701;
0x1030407010404070105040701060407010704070108040701090407010a040701;
0x10b0407010c0407010d0407010205070103050701040507010505070106050701;
0x10705070108050701090507010a0507010b0507010c0507010d05070102060701;
0x10306070104060701050607010a0607010b0607010c0607010d06070102070701;
0x10307070104070701050707010a0707010b0707010c0707010d07070102080701;
0x10308070104080701050807010a0807010b0807010c0807010d08070102090701;
0x10309070104090701050907010a0907010b0907010c0907010d090701000a0701;
0x1010a0701020a0701030a0701040a0701050a07010a0a07010b0a07010c0a0701;
0x10d0a07010e0a07010f0a0701000b0701010b0701020b0701030b0701040b0701;
0x1050b07010a0b07010b0b07010c0b07010d0b07010e0b07010f0b0701000c0701;
0x1010c0701020c0701030c0701040c0701050c07010a0c07010b0c07010c0c0701;
0x10d0c07010e0c07010f0c0701000d0701010d0701020d0701030d0701040d0701;
0x1050d07010a0d07010b0d07010c0d07010d0d07010e0d07010f0d070152474241;
0x1000400000000000000000000f0f0f0fff0f0f0fff0f0f0fff0f0f0fff0f0f0ff;
0x1f0f0f0fff0f0f0fff0f0f0fff0f0f0fff0f0f0fff0f0f0fff0f0f0fff0f0f0ff;
0x1f0f0f0fff0f0f0fff0f0f0fff0f0f0fff0f0f0fff0f0f0fff0f0f0fff0f0f0ff;
0x1f0f0f0fff0f0f0fff0f0f0fff0f0f0fff0f0f0fff0f0f0fff0f0f0fff0f0f0ff;
0x1f0f0f0fff0f0f0fff0f0f0fff0f0f0fff0f0f0fff0f0f0fff0f0f0fff0f0f0ff;
0x1f0f0f0fff0f0f0fff0f0f0fff0f0f0fff0f0f0fff0f0f0fff0f0f0fff0f0f0ff;
0x1f0f0f0fff0f0f0fff0f0f0fff0f0f0fff0f0f0fff0f0f0fff0f0f0fff0f0f0ff;
0x1f0f0f0fff0f0f0fff0f0f0fff0f0f0fff0f0f0fff0f0f0fff0f0f0fff0f0f0ff;
0x1f0f0f0fff0f0f0fff0f0f0fff0f0f0fff0f0f0fff0f0f0fff0f0f0fff0f0f0ff;
0x1f0f0f0fff0f0f0fff0f0f0fff0f0f0fff0f0f0fff0f0f0fff0f0f0fff0f0f0ff;
0x1f0f0f0fff0f0f0fff0f0f0fff0f0f0fff0f0f0fff0f0f0fff0f0f0fff0f0f0ff;
0x1f0f0f0fff0f0f0fff0f0f0fff0f0f0fff0f0f0fff0f0f0fff0f0f0fff0f0f0ff;
0x1f0f0f0fff0f0f0fff0f0f0fff0f0f0fff0f0f0fff0f0f0fff0f0f0fff0f0f0ff;
0x1f0f0f0fff0f0f0fff0f0f0fff0f0f0fff0f0f0fff0f0f0fff0f0f0fff0f0f0ff;
0x1f0f0f0fff0f0f0fff0f0f0fff0f0f0fff0f0f0fff0f0f0fff0f0f0fff0f0f0ff;
0x1f0f0f0fff0f0f0fff0f0f0fff0f0f0fff0f0f0fff0f0f0fff0f0f0fff0f0f0ff;
0x1f0f0f0fff0f0f0fff0f0f0fff0f0f0fff0f0f0fff0f0f0fff0f0f0fff0f0f0ff;
0x1f0f0f0fff0f0f0fff0f0f0fff0f0f0fff0f0f0fff0f0f0fff0f0f0fff0f0f0ff;
0x1f0f0f0fff0f0f0fff0f0f0fff0f0f0fff0f0f0fff0f0f0fff0f0f0fff0f0f0ff;
0x1f0f0f0fff0f0f0fff0f0f0fff0f0f0fff0f0f0fff0f0f0fff0f0f0fff0f0f0ff;
0x1f0f0f0fff0f0f0fff0f0f0fff0f0f0fff0f0f0fff0f0f0fff0f0f0fff0f0f0ff;
0x1f0f0f0fff0f0f0fff0f0f0fff0f0f0fff0f0f0fff0f0f0fff0f0f0fff0f0f0ff;
0x1f0f0f0fff0f0f0fff0f0f0fff0f0f0ff00000000000000000000000000000000;
0x10000000000000000000000000000000000000000000000000000000000000000;
0x10000000000000000000000000000000000000000000000000000000000000000;
0x10000000000000000000000000000000000000000000000000000000000000000;
0x10000000000000000000000000000000000000000000000000000000000000000;
0x10000000000000000000000000000000000000000000000000000000000000000;
0x10000000000000000000000000000000000000000000000000000000000000000;
0x10000000000000000000000000000000000000000000000000000000000000000;
0x10000000000000000000000000000000000000000000000000000000000000000;
0x10000000000000000000000000000000000000000000000000000000000000000;
0x10000000000000000].
(** redeclipse/prefabs/spacestation/station_sphere.vox (11336 bytes) *)
Definition vox_spacestation_station_sphere : list Z := [
0x1564f5820960000004d41494e00000000342c000053495a450c00000000000000;
0x118000000180000001800000058595a490428000000000000000a00000a090001;
0x10b0900010c0900010d090001090a00010a0a00010b0a00010c0a00010d0a0001;
0x10e0a0001090b00010a0b00010b0b00010c0b00010d0b00010e0b0001090c0001;
0x10a0c00010b0c00010c0c00010d0c00010e0c0001090d00010a0d00010b0d0001;
0x10c0d00010d0d00010e0d00010a0e00010b0e00010c0e00010d0e00010a060101;
0x10b0601010c0601010d06010108070101090701010a0701010b0701010c070101;
0x10d0701010e0701010f0701010708010108080101090801010a0801010b080101;
0x10c0801010d0801010e0801010f08010110080101070901010809010109090101;
0x10e0901010f09010110090101060a0101070a0101080a01010f0a0101100a0101;
0x1110a0101060b0101070b0101080b01010f0b0101100b0101110b0101060c0101;
0x1070c0101080c01010f0c0101100c0101110c0101060d0101070d0101080d0101;
0x10f0d0101100d0101110d0101070e0101080e0101090e01010e0e01010f0e0101;
0x1100e0101070f0101080f0101090f01010a0f01010b0f01010c0f01010d0f0101;
0x10e0f01010f0f0101100f010108100101091001010a1001010b1001010c100101;
0x10d1001010e1001010f1001010a1101010b1101010c1101010d11010109050201;
0x10a0502010b0502010c0502010d0502010e050201070602010806020109060201;
0x10a0602010b0602010c0602010d0602010e0602010f0602011006020106070201;
0x10707020108070201090702010e0702010f070201100702011107020106080201;
0x10708020110080201110802010509020106090201070902011009020111090201;
0x112090201050a0201060a0201110a0201120a0201050b0201060b0201110b0201;
0x1120b0201050c0201060c0201110c0201120c0201050d0201060d0201110d0201;
0x1120d0201050e0201060e0201070e0201100e0201110e0201120e0201060f0201;
0x1070f0201100f0201110f0201061002010710020108100201091002010e100201;
0x10f10020110100201111002010711020108110201091102010a1102010b110201;
0x10c1102010d1102010e1102010f11020110110201091202010a1202010b120201;
0x10c1202010d1202010e12020108040301090403010a0403010b0403010c040301;
0x10d0403010e0403010f0403010705030108050301090503010a0503010b050301;
0x10c0503010d0503010e0503010f05030110050301060603010706030108060301;
0x10f06030110060301110603010507030106070301070703011007030111070301;
0x11207030104080301050803010608030111080301120803011308030104090301;
0x1050903011209030113090301040a0301050a0301120a0301130a0301040b0301;
0x1050b0301120b0301130b0301040c0301050c0301120c0301130c0301040d0301;
0x1050d0301120d0301130d0301040e0301050e0301120e0301130e0301040f0301;
0x1050f0301060f0301110f0301120f0301130f0301051003010610030107100301;
0x11010030111100301121003010611030107110301081103010f11030110110301;
0x1111103010712030108120301091203010a1203010b1203010c1203010d120301;
0x10e1203010f1203011012030108130301091303010a1303010b1303010c130301;
0x10d1303010e1303010f13030108030401090304010a0304010b0304010c030401;
0x10d0304010e0304010f030401060404010704040108040401090404010a040401;
0x10b0404010c0404010d0404010e0404010f040401100404011104040105050401;
0x10605040107050401080504010f05040110050401110504011205040104060401;
0x10506040106060401110604011206040113060401040704010507040112070401;
0x11307040103080401040804010508040112080401130804011408040103090401;
0x1040904011309040114090401030a0401040a0401130a0401140a0401030b0401;
0x1040b0401130b0401140b0401030c0401040c0401130c0401140c0401030d0401;
0x1040d0401130d0401140d0401030e0401040e0401130e0401140e0401030f0401;
0x1040f0401050f0401120f0401130f0401140f0401041004010510040112100401;
0x11310040104110401051104010611040111110401121104011311040105120401;
0x10612040107120401081204010f12040110120401111204011212040106130401;
0x10713040108130401091304010a1304010b1304010c1304010d1304010e130401;
0x10f130401101304011113040108140401091404010a1404010b1404010c140401;
0x10d1404010e1404010f140401090205010a0205010b0205010c0205010d020501;
0x10e0205010703050108030501090305010a0305010b0305010c0305010d030501;
0x10e0305010f03050110030501050405010604050107040501080405010f040501;
0x11004050111040501120405010405050105050501060505011105050112050501;
0x11305050104060501050605011206050113060501030705010407050113070501;
0x11407050103080501040805011308050114080501020905010309050114090501;
0x115090501020a0501030a0501140a0501150a0501020b0501030b0501140b0501;
0x1150b0501020c0501030c0501140c0501150c0501020d0501030d0501140d0501;
0x1150d0501020e0501030e0501140e0501150e0501030f0501040f0501130f0501;
0x1140f050103100501041005011310050114100501041105010511050112110501;
0x11311050104120501051205010612050111120501121205011312050105130501;
0x10613050107130501081305010f13050110130501111305011213050107140501;
0x108140501091405010a1405010b1405010c1405010d1405010e1405010f140501;
0x110140501091505010a1505010b1505010c1505010d1505010e1505010a010601;
0x10b0106010c0106010d0106010702060108020601090206010a0206010b020601;
0x10c0206010d0206010e0206010f02060110020601060306010703060108030601;
0x1090306010e0306010f0306011003060111030601040406010504060106040601;
0x10704060110040601110406011204060113040601040506010505060112050601;
0x11305060103060601040606011306060114060601020706010307060104070601;
0x11307060114070601150706010208060103080601140806011508060102090601;
0x1030906011409060115090601010a0601020a0601150a0601160a0601010b0601;
0x1020b0601150b0601160b0601010c0601020c0601150c0601160c0601010d0601;
0x1020d0601150d0601160d0601020e0601030e0601140e0601150e0601020f0601;
0x1030f0601140f0601150f06010210060103100601041006011310060114100601;
0x11510060103110601041106011311060114110601041206010512060112120601;
0x11312060104130601051306010613060107130601101306011113060112130601;
0x113130601061406010714060108140601091406010e1406010f14060110140601;
0x1111406010715060108150601091506010a1506010b1506010c1506010d150601;
0x10e1506010f150601101506010a1606010b1606010c1606010d16060108010701;
0x1090107010a0107010b0107010c0107010d0107010e0107010f01070106020701;
0x10702070108020701090207010a0207010b0207010c0207010d0207010e020701;
0x10f0207011002070111020701050307010603070107030701080307010f030701;
0x11003070111030701120307010404070105040701060407011104070112040701;
0x11304070103050701040507010505070112050701130507011405070102060701;
0x10306070104060701130607011406070115060701020707010307070114070701;
0x11507070101080701020807010308070114080701150807011608070101090701;
0x1020907011509070116090701010a0701020a0701150a0701160a0701010b0701;
0x1020b0701150b0701160b0701010c0701020c0701150c0701160c0701010d0701;
0x1020d0701150d0701160d0701010e0701020e0701150e0701160e0701010f0701;
0x1020f0701030f0701140f0701150f0701160f0701021007010310070114100701;
0x11510070102110701031107010411070113110701141107011511070103120701;
0x10412070105120701121207011312070114120701041307010513070106130701;
0x1111307011213070113130701051407010614070107140701081407010f140701;
0x1101407011114070112140701061507010715070108150701091507010a150701;
0x10b1507010c1507010d1507010e1507010f150701101507011115070108160701;
0x1091607010a1607010b1607010c1607010d1607010e1607010f1607010a000801;
0x10b0008010c0008010d0008010701080108010801090108010a0108010b010801;
0x10c0108010d0108010e0108010f01080110010801060208010702080108020801;
0x1090208010a0208010b0208010c0208010d0208010e0208010f02080110020801;
0x111020801040308010503080106030801070308010a0308010b0308010c030801;
0x10d03080110030801110308011203080113030801030408010404080105040801;
0x10a0408010b0408010c0408010d04080112040801130408011404080103050801;
0x1040508010a0508010b0508010c0508010d050801130508011405080102060801;
0x1030608010a0608010b0608010c0608010d060801140608011506080101070801;
0x102070801030708010a0708010b0708010c0708010d0708011407080115070801;
0x11607080101080801020808010a0808010b0808010c0808010d08080115080801;
0x11608080101090801020908010a0908010b0908010c0908010d09080115090801;
0x116090801000a0801010a0801020a0801030a0801040a0801050a0801060a0801;
0x1070a0801080a0801090a08010a0a08010b0a08010c0a08010d0a08010e0a0801;
0x10f0a0801100a0801110a0801120a0801130a0801140a0801150a0801160a0801;
0x1170a0801000b0801010b0801020b0801030b0801040b0801050b0801060b0801;
0x1070b0801080b0801090b08010a0b08010b0b08010c0b08010d0b08010e0b0801;
0x10f0b0801100b0801110b0801120b0801130b0801140b0801150b0801160b0801;
0x1170b0801000c0801010c0801020c0801030c0801040c0801050c0801060c0801;
0x1070c0801080c0801090c08010a0c08010b0c08010c0c08010d0c08010e0c0801;
0x10f0c0801100c0801110c0801120c0801130c0801140c0801150c0801160c0801;
0x1170c0801000d0801010d0801020d0801030d0801040d0801050d0801060d0801;
0x1070d0801080d0801090d08010a0d08010b0d08010c0d08010d0d08010e0d0801;
0x10f0d0801100d0801110d0801120d0801130d0801140d0801150d0801160d0801;
0x1170d0801010e0801020e08010a0e08010b0e08010c0e08010d0e0801150e0801;
0x1160e0801010f0801020f08010a0f08010b0f08010c0f08010d0f0801150f0801;
0x1160f08010110080102100801031008010a1008010b1008010c1008010d100801;
0x114100801151008011610080102110801031108010a1108010b1108010c110801;
0x10d110801141108011511080103120801041208010a1208010b1208010c120801;
0x10d12080113120801141208010313080104130801051308010a1308010b130801;
0x10c1308010d130801121308011313080114130801041408010514080106140801;
0x1071408010a1408010b1408010c1408010d140801101408011114080112140801;
0x113140801061508010715080108150801091508010a1508010b1508010c150801;
0x10d1508010e1508010f1508011015080111150801071608010816080109160801;
0x10a1608010b1608010c1608010d1608010e1608010f160801101608010a170801;
0x10b1708010c1708010d170801090009010e000901070109010801090109010901;
0x10e0109010f010901100109010502090106020901070209010802090109020901;
0x10e0209010f020901100209011102090112020901040309010503090106030901;
0x11103090112030901130309010304090104040901050409011204090113040901;
0x11404090102050901030509010405090113050901140509011505090102060901;
0x10306090114060901150609010107090102070901150709011607090101080901;
0x10208090115080901160809010009090101090901020909011509090116090901;
0x117090901000e0901010e0901020e0901150e0901160e0901170e0901010f0901;
0x1020f0901150f0901160f09010110090102100901151009011610090102110901;
0x10311090114110901151109010212090103120901041209011312090114120901;
0x11512090103130901041309010513090112130901131309011413090104140901;
0x10514090106140901111409011214090113140901051509010615090107150901;
0x108150901091509010e1509010f15090110150901111509011215090107160901;
0x108160901091609010e1609010f16090110160901091709010e17090108000a01;
0x10f000a0106010a0107010a0108010a010f010a0110010a0111010a0105020a01;
0x106020a0107020a0108020a010f020a0110020a0111020a0112020a0104030a01;
0x105030a0106030a0111030a0112030a0113030a0103040a0104040a0105040a01;
0x112040a0113040a0114040a0102050a0103050a0104050a0113050a0114050a01;
0x115050a0101060a0102060a0103060a0114060a0115060a0116060a0101070a01;
0x102070a0115070a0116070a0100080a0101080a0102080a0115080a0116080a01;
0x117080a01000f0a01010f0a01020f0a01150f0a01160f0a01170f0a0101100a01;
0x102100a0115100a0116100a0101110a0102110a0103110a0114110a0115110a01;
0x116110a0102120a0103120a0104120a0113120a0114120a0115120a0103130a01;
0x104130a0105130a0112130a0113130a0114130a0104140a0105140a0106140a01;
0x111140a0112140a0113140a0105150a0106150a0107150a0108150a010f150a01;
0x110150a0111150a0112150a0106160a0107160a0108160a010f160a0110160a01;
0x111160a0108170a010f170a0108000b010f000b0106010b0107010b0108010b01;
0x10f010b0110010b0111010b0105020b0106020b0107020b0108020b010f020b01;
0x110020b0111020b0112020b0104030b0105030b0106030b0111030b0112030b01;
0x113030b0103040b0104040b0113040b0114040b0102050b0103050b0114050b01;
0x115050b0101060b0102060b0103060b0114060b0115060b0116060b0101070b01;
0x102070b0115070b0116070b0100080b0101080b0102080b0115080b0116080b01;
0x117080b01000f0b01010f0b01020f0b01150f0b01160f0b01170f0b0101100b01;
0x102100b0115100b0116100b0101110b0102110b0103110b0114110b0115110b01;
0x116110b0102120b0103120b0114120b0115120b0103130b0104130b0113130b01;
0x114130b0104140b0105140b0106140b0111140b0112140b0113140b0105150b01;
0x106150b0107150b0108150b010f150b0110150b0111150b0112150b0106160b01;
0x107160b0108160b010f160b0110160b0111160b0108170b010f170b0108000c01;
0x10f000c0106010c0107010c0108010c010f010c0110010c0111010c0105020c01;
0x106020c0107020c0108020c010f020c0110020c0111020c0112020c0104030c01;
0x105030c0106030c0111030c0112030c0113030c0103040c0104040c0113040c01;
0x114040c0102050c0103050c0114050c0115050c0101060c0102060c0103060c01;
0x114060c0115060c0116060c0101070c0102070c0115070c0116070c0100080c01;
0x101080c0102080c0115080c0116080c0117080c01000f0c01010f0c01020f0c01;
0x1150f0c01160f0c01170f0c0101100c0102100c0115100c0116100c0101110c01;
0x102110c0103110c0114110c0115110c0116110c0102120c0103120c0114120c01;
0x115120c0103130c0104130c0113130c0114130c0104140c0105140c0106140c01;
0x111140c0112140c0113140c0105150c0106150c0107150c0108150c010f150c01;
0x110150c0111150c0112150c0106160c0107160c0108160c010f160c0110160c01;
0x111160c0108170c010f170c0108000d010f000d0106010d0107010d0108010d01;
0x10f010d0110010d0111010d0105020d0106020d0107020d0108020d010f020d01;
0x110020d0111020d0112020d0104030d0105030d0106030d0111030d0112030d01;
0x113030d0103040d0104040d0105040d0112040d0113040d0114040d0102050d01;
0x103050d0104050d0113050d0114050d0115050d0101060d0102060d0103060d01;
0x114060d0115060d0116060d0101070d0102070d0115070d0116070d0100080d01;
0x101080d0102080d0115080d0116080d0117080d01000f0d01010f0d01020f0d01;
0x1150f0d01160f0d01170f0d0101100d0102100d0115100d0116100d0101110d01;
0x102110d0103110d0114110d0115110d0116110d0102120d0103120d0104120d01;
0x113120d0114120d0115120d0103130d0104130d0105130d0112130d0113130d01;
0x114130d0104140d0105140d0106140d0111140d0112140d0113140d0105150d01;
0x106150d0107150d0108150d010f150d0110150d0111150d0112150d0106160d01;
0x107160d0108160d010f160d0110160d0111160d0108170d010f170d0109000e01;
0x10e000e0107010e0108010e0109010e010e010e010f010e0110010e0105020e01;
0x106020e0107020e0108020e0109020e010e020e010f020e0110020e0111020e01;
0x112020e0104030e0105030e0106030e0111030e0112030e0113030e0103040e01;
0x104040e0105040e0112040e0113040e0114040e0102050e0103050e0104050e01;
0x113050e0114050e0115050e0102060e0103060e0114060e0115060e0101070e01;
0x102070e0115070e0116070e0101080e0102080e0115080e0116080e0100090e01;
0x101090e0102090e0115090e0116090e0117090e01000e0e01010e0e01020e0e01;
0x1150e0e01160e0e01170e0e01010f0e01020f0e01150f0e01160f0e0101100e01;
0x102100e0115100e0116100e0102110e0103110e0114110e0115110e0102120e01;
0x103120e0104120e0113120e0114120e0115120e0103130e0104130e0105130e01;
0x112130e0113130e0114130e0104140e0105140e0106140e0111140e0112140e01;
0x113140e0105150e0106150e0107150e0108150e0109150e010e150e010f150e01;
0x110150e0111150e0112150e0107160e0108160e0109160e010e160e010f160e01;
0x110160e0109170e010e170e010a000f010b000f010c000f010d000f0107010f01;
0x108010f0109010f010a010f010b010f010c010f010d010f010e010f010f010f01;
0x110010f0106020f0107020f0108020f0109020f010a020f010b020f010c020f01;
0x10d020f010e020f010f020f0110020f0111020f0104030f0105030f0106030f01;
0x107030f0110030f0111030f0112030f0113030f0103040f0104040f0105040f01;
0x112040f0113040f0114040f0103050f0104050f0113050f0114050f0102060f01;
0x103060f0114060f0115060f0101070f0102070f0103070f0114070f0115070f01;
0x116070f0101080f0102080f0115080f0116080f0101090f0102090f0115090f01;
0x116090f01000a0f01010a0f01020a0f01150a0f01160a0f01170a0f01000b0f01;
0x1010b0f01020b0f01150b0f01160b0f01170b0f01000c0f01010c0f01020c0f01;
0x1150c0f01160c0f01170c0f01000d0f01010d0f01020d0f01150d0f01160d0f01;
0x1170d0f01010e0f01020e0f01150e0f01160e0f01010f0f01020f0f01150f0f01;
0x1160f0f0101100f0102100f0103100f0114100f0115100f0116100f0102110f01;
0x103110f0114110f0115110f0103120f0104120f0113120f0114120f0103130f01;
0x104130f0105130f0112130f0113130f0114130f0104140f0105140f0106140f01;
0x107140f0110140f0111140f0112140f0113140f0106150f0107150f0108150f01;
0x109150f010a150f010b150f010c150f010d150f010e150f010f150f0110150f01;
0x111150f0107160f0108160f0109160f010a160f010b160f010c160f010d160f01;
0x10e160f010f160f0110160f010a170f010b170f010c170f010d170f0108011001;
0x1090110010a0110010b0110010c0110010d0110010e0110010f01100106021001;
0x10702100108021001090210010a0210010b0210010c0210010d0210010e021001;
0x10f0210011002100111021001050310010603100107031001080310010f031001;
0x11003100111031001120310010404100105041001060410011104100112041001;
0x11304100103051001040510010505100112051001130510011405100102061001;
0x10306100104061001130610011406100115061001020710010307100114071001;
0x11507100101081001020810010308100114081001150810011608100101091001;
0x1020910011509100116091001010a1001020a1001150a1001160a1001010b1001;
0x1020b1001150b1001160b1001010c1001020c1001150c1001160c1001010d1001;
0x1020d1001150d1001160d1001010e1001020e1001150e1001160e1001010f1001;
0x1020f1001030f1001140f1001150f1001160f1001021010010310100114101001;
0x11510100102111001031110010411100113111001141110011511100103121001;
0x10412100105121001121210011312100114121001041310010513100106131001;
0x1111310011213100113131001051410010614100107141001081410010f141001;
0x1101410011114100112141001061510010715100108151001091510010a151001;
0x10b1510010c1510010d1510010e1510010f151001101510011115100108161001;
0x1091610010a1610010b1610010c1610010d1610010e1610010f1610010a011101;
0x10b0111010c0111010d0111010702110108021101090211010a0211010b021101;
0x10c0211010d0211010e0211010f02110110021101060311010703110108031101;
0x1090311010e0311010f0311011003110111031101040411010504110106041101;
0x10704110110041101110411011204110113041101040511010505110112051101;
0x11305110103061101040611011306110114061101020711010307110104071101;
0x11307110114071101150711010208110103081101140811011508110102091101;
0x1030911011409110115091101010a1101020a1101150a1101160a1101010b1101;
0x1020b1101150b1101160b1101010c1101020c1101150c1101160c1101010d1101;
0x1020d1101150d1101160d1101020e1101030e1101140e1101150e1101020f1101;
0x1030f1101140f1101150f11010210110103101101041011011310110114101101;
0x11510110103111101041111011311110114111101041211010512110112121101;
0x11312110104131101051311010613110107131101101311011113110112131101;
0x113131101061411010714110108141101091411010e1411010f14110110141101;
0x1111411010715110108151101091511010a1511010b1511010c1511010d151101;
0x10e1511010f151101101511010a1611010b1611010c1611010d16110109021201;
0x10a0212010b0212010c0212010d0212010e021201070312010803120109031201;
0x10a0312010b0312010c0312010d0312010e0312010f0312011003120105041201;
0x10604120107041201080412010f04120110041201110412011204120104051201;
0x10505120106051201110512011205120113051201040612010506120112061201;
0x11306120103071201040712011307120114071201030812010408120113081201;
0x11408120102091201030912011409120115091201020a1201030a1201140a1201;
0x1150a1201020b1201030b1201140b1201150b1201020c1201030c1201140c1201;
0x1150c1201020d1201030d1201140d1201150d1201020e1201030e1201140e1201;
0x1150e1201030f1201040f1201130f1201140f1201031012010410120113101201;
0x11410120104111201051112011211120113111201041212010512120106121201;
0x1111212011212120113121201051312010613120107131201081312010f131201;
0x11013120111131201121312010714120108141201091412010a1412010b141201;
0x10c1412010d1412010e1412010f14120110141201091512010a1512010b151201;
0x10c1512010d1512010e15120108031301090313010a0313010b0313010c031301;
0x10d0313010e0313010f031301060413010704130108041301090413010a041301;
0x10b0413010c0413010d0413010e0413010f041301100413011104130105051301;
0x10605130107051301080513010f05130110051301110513011205130104061301;
0x10506130106061301110613011206130113061301040713010507130112071301;
0x11307130103081301040813010508130112081301130813011408130103091301;
0x1040913011309130114091301030a1301040a1301130a1301140a1301030b1301;
0x1040b1301130b1301140b1301030c1301040c1301130c1301140c1301030d1301;
0x1040d1301130d1301140d1301030e1301040e1301130e1301140e1301030f1301;
0x1040f1301050f1301120f1301130f1301140f1301041013010510130112101301;
0x11310130104111301051113010611130111111301121113011311130105121301;
0x10612130107121301081213010f12130110121301111213011212130106131301;
0x10713130108131301091313010a1313010b1313010c1313010d1313010e131301;
0x10f131301101313011113130108141301091413010a1413010b1413010c141301;
0x10d1413010e1413010f14130108041401090414010a0414010b0414010c041401;
0x10d0414010e0414010f0414010705140108051401090514010a0514010b051401;
0x10c0514010d0514010e0514010f05140110051401060614010706140108061401;
0x10f06140110061401110614010507140106071401070714011007140111071401;
0x11207140104081401050814010608140111081401120814011308140104091401;
0x1050914011209140113091401040a1401050a1401120a1401130a1401040b1401;
0x1050b1401120b1401130b1401040c1401050c1401120c1401130c1401040d1401;
0x1050d1401120d1401130d1401040e1401050e1401120e1401130e1401040f1401;
0x1050f1401060f1401110f1401120f1401130f1401051014010610140107101401;
0x11010140111101401121014010611140107111401081114010f11140110111401;
0x1111114010712140108121401091214010a1214010b1214010c1214010d121401;
0x10e1214010f1214011012140108131401091314010a1314010b1314010c131401;
0x10d1314010e1314010f131401090515010a0515010b0515010c0515010d051501;
0x10e0515010706150108061501090615010a0615010b0615010c0615010d061501;
0x10e0615010f06150110061501060715010707150108071501090715010e071501;
0x10f07150110071501110715010608150107081501100815011108150105091501;
0x10609150107091501100915011109150112091501050a1501060a1501110a1501;
0x1120a1501050b1501060b1501110b1501120b1501050c1501060c1501110c1501;
0x1120c1501050d1501060d1501110d1501120d1501050e1501060e1501070e1501;
0x1100e1501110e1501120e1501060f1501070f1501100f1501110f150106101501;
0x10710150108101501091015010e1015010f101501101015011110150107111501;
0x108111501091115010a1115010b1115010c1115010d1115010e1115010f111501;
0x110111501091215010a1215010b1215010c1215010d1215010e1215010a061601;
0x10b0616010c0616010d06160108071601090716010a0716010b0716010c071601;
0x10d0716010e0716010f0716010708160108081601090816010a0816010b081601;
0x10c0816010d0816010e0816010f08160110081601070916010809160109091601;
0x10e0916010f09160110091601060a1601070a1601080a16010f0a1601100a1601;
0x1110a1601060b1601070b1601080b16010f0b1601100b1601110b1601060c1601;
0x1070c1601080c16010f0c1601100c1601110c1601060d1601070d1601080d1601;
0x10f0d1601100d1601110d1601070e1601080e1601090e16010e0e16010f0e1601;
0x1100e1601070f1601080f1601090f16010a0f16010b0f16010c0f16010d0f1601;
0x10e0f16010f0f1601100f160108101601091016010a1016010b1016010c101601;
0x10d1016010e1016010f1016010a1116010b1116010c1116010d1116010a091701;
0x10b0917010c0917010d091701090a17010a0a17010b0a17010c0a17010d0a1701;
0x10e0a1701090b17010a0b17010b0b17010c0b17010d0b17010e0b1701090c1701;
0x10a0c17010b0c17010c0c17010d0c17010e0c1701090d17010a0d17010b0d1701;
0x10c0d17010d0d17010e0d17010a0e17010b0e17010c0e17010d0e170152474241;
0x1000400000000000000000000f0f0f0fff0f0f0fff0f0f0fff0f0f0fff0f0f0ff;
0x1f0f0f0fff0f0f0fff0f0f0fff0f0f0fff0f0f0fff0f0f0fff0f0f0fff0f0f0ff;
0x1f0f0f0fff0f0f0fff0f0f0fff0f0f0fff0f0f0fff0f0f0fff0f0f0fff0f0f0ff;
0x1f0f0f0fff0f0f0fff0f0f0fff0f0f0fff0f0f0fff0f0f0fff0f0f0fff0f0f0ff;
0x1f0f0f0fff0f0f0fff0f0f0fff0f0f0fff0f0f0fff0f0f0fff0f0f0fff0f0f0ff;
0x1f0f0f0fff0f0f0fff0f0f0fff0f0f0fff0f0f0fff0f0f0fff0f0f0fff0f0f0ff;
0x1f0f0f0fff0f0f0fff0f0f0fff0f0f0fff0f0f0fff0f0f0fff0f0f0fff0f0f0ff;
0x1f0f0f0fff0f0f0fff0f0f0fff0f0f0fff0f0f0fff0f0f0fff0f0f0fff0f0f0ff;
0x1f0f0f0fff0f0f0fff0f0f0fff0f0f0fff0f0f0fff0f0f0fff0f0f0fff0f0f0ff;
0x1f0f0f0fff0f0f0fff0f0f0fff0f0f0fff0f0f0fff0f0f0fff0f0f0fff0f0f0ff;
0x1f0f0f0fff0f0f0fff0f0f0fff0f0f0fff0f0f0fff0f0f0fff0f0f0fff0f0f0ff;
0x1f0f0f0fff0f0f0fff0f0f0fff0f0f0fff0f0f0fff0f0f0fff0f0f0fff0f0f0ff;
0x1f0f0f0fff0f0f0fff0f0f0fff0f0f0fff0f0f0fff0f0f0fff0f0f0fff0f0f0ff;
0x1f0f0f0fff0f0f0fff0f0f0fff0f0f0fff0f0f0fff0f0f0fff0f0f0fff0f0f0ff;
0x1f0f0f0fff0f0f0fff0f0f0fff0f0f0fff0f0f0fff0f0f0fff0f0f0fff0f0f0ff;
0x1f0f0f0fff0f0f0fff0f0f0fff0f0f0fff0f0f0fff0f0f0fff0f0f0fff0f0f0ff;
0x1f0f0f0fff0f0f0fff0f0f0fff0f0f0fff0f0f0fff0f0f0fff0f0f0fff0f0f0ff;
0x1f0f0f0fff0f0f0fff0f0f0fff0f0f0fff0f0f0fff0f0f0fff0f0f0fff0f0f0ff;
0x1f0f0f0fff0f0f0fff0f0f0fff0f0f0fff0f0f0fff0f0f0fff0f0f0fff0f0f0ff;
0x1f0f0f0fff0f0f0fff0f0f0fff0f0f0fff0f0f0fff0f0f0fff0f0f0fff0f0f0ff;
0x1f0f0f0fff0f0f0fff0f0f0fff0f0f0fff0f0f0fff0f0f0fff0f0f0fff0f0f0ff;
0x1f0f0f0fff0f0f0fff0f0f0fff0f0f0fff0f0f0fff0f0f0fff0f0f0fff0f0f0ff;
0x1f0f0f0fff0f0f0fff0f0f0fff0f0f0fff0f0f0fff0f0f0fff0f0f0fff0f0f0ff;
0x1f0f0f0fff0f0f0fff0f0f0fff0f0f0fff0f0f0fff0f0f0fff0f0f0fff0f0f0ff;
0x1f0f0f0fff0f0f0fff0f0f0fff0f0f0fff0f0f0fff0f0f0fff0f0f0fff0f0f0ff;
0x1f0f0f0fff0f0f0fff0f0f0fff0f0f0fff0f0f0fff0f0f0ff0000000000000000;
0x10000000000000000000000000000000000000000000000000000000000000000;
0x10000000000000000000000000000000000000000000000000000000000000000;
0x10000000000000000000000000000000000000000000000000000000000000000;
0x10000000000000000000000000000000000000000000000000000000000000000;
0x10000000000000000000000000000000000000000000000000000000000000000;
0x10000000000000000000000000000000000000000000000000000000000000000;
0x10000000000000000].
(** redeclipse/prefabs/spacestation/station_sphere_slice.vox (6888 bytes) *)
Definition vox_spacestation_station_sphere_slice : list Z := [
0x1564f5820960000004d41494e00000000d41a000053495a450c00000000000000;
0x118000000180000000800000058595a49a416000000000000a80500000a000001;
0x10b0000010c0000010d0000010701000108010001090100010a0100010b010001;
0x10c0100010d0100010e0100010f01000110010001060200010702000108020001;
0x1090200010a0200010b0200010c0200010d0200010e0200010f02000110020001;
0x1110200010403000105030001060300010703000108030001090300010a030001;
0x10b0300010c0300010d0300010e0300010f030001100300011103000112030001;
0x11303000103040001040400010504000106040001070400010804000109040001;
0x10a0400010b0400010c0400010d0400010e0400010f0400011004000111040001;
0x11204000113040001140400010305000104050001050500010605000107050001;
0x108050001090500010a0500010b0500010c0500010d0500010e0500010f050001;
0x11005000111050001120500011305000114050001020600010306000104060001;
0x105060001060600010706000108060001090600010a0600010b0600010c060001;
0x10d0600010e0600010f0600011006000111060001120600011306000114060001;
0x11506000101070001020700010307000104070001050700010607000107070001;
0x108070001090700010a0700010b0700010c0700010d0700010e0700010f070001;
0x11007000111070001120700011307000114070001150700011607000101080001;
0x10208000103080001040800010508000106080001070800010808000109080001;
0x10a0800010b0800010c0800010d0800010e0800010f0800011008000111080001;
0x11208000113080001140800011508000116080001010900010209000103090001;
0x10409000105090001060900010709000108090001090900010a0900010b090001;
0x10c0900010d0900010e0900010f09000110090001110900011209000113090001;
0x1140900011509000116090001000a0001010a0001020a0001030a0001040a0001;
0x1050a0001060a0001070a0001080a0001090a00010a0a00010b0a00010c0a0001;
0x10d0a00010e0a00010f0a0001100a0001110a0001120a0001130a0001140a0001;
0x1150a0001160a0001170a0001000b0001010b0001020b0001030b0001040b0001;
0x1050b0001060b0001070b0001080b0001090b00010a0b00010b0b00010c0b0001;
0x10d0b00010e0b00010f0b0001100b0001110b0001120b0001130b0001140b0001;
0x1150b0001160b0001170b0001000c0001010c0001020c0001030c0001040c0001;
0x1050c0001060c0001070c0001080c0001090c00010a0c00010b0c00010c0c0001;
0x10d0c00010e0c00010f0c0001100c0001110c0001120c0001130c0001140c0001;
0x1150c0001160c0001170c0001000d0001010d0001020d0001030d0001040d0001;
0x1050d0001060d0001070d0001080d0001090d00010a0d00010b0d00010c0d0001;
0x10d0d00010e0d00010f0d0001100d0001110d0001120d0001130d0001140d0001;
0x1150d0001160d0001170d0001010e0001020e0001030e0001040e0001050e0001;
0x1060e0001070e0001080e0001090e00010a0e00010b0e00010c0e00010d0e0001;
0x10e0e00010f0e0001100e0001110e0001120e0001130e0001140e0001150e0001;
0x1160e0001010f0001020f0001030f0001040f0001050f0001060f0001070f0001;
0x1080f0001090f00010a0f00010b0f00010c0f00010d0f00010e0f00010f0f0001;
0x1100f0001110f0001120f0001130f0001140f0001150f0001160f000101100001;
0x10210000103100001041000010510000106100001071000010810000109100001;
0x10a1000010b1000010c1000010d1000010e1000010f1000011010000111100001;
0x11210000113100001141000011510000116100001021100010311000104110001;
0x105110001061100010711000108110001091100010a1100010b1100010c110001;
0x10d1100010e1100010f1100011011000111110001121100011311000114110001;
0x11511000103120001041200010512000106120001071200010812000109120001;
0x10a1200010b1200010c1200010d1200010e1200010f1200011012000111120001;
0x11212000113120001141200010313000104130001051300010613000107130001;
0x108130001091300010a1300010b1300010c1300010d1300010e1300010f130001;
0x11013000111130001121300011313000114130001041400010514000106140001;
0x10714000108140001091400010a1400010b1400010c1400010d1400010e140001;
0x10f14000110140001111400011214000113140001061500010715000108150001;
0x1091500010a1500010b1500010c1500010d1500010e1500010f15000110150001;
0x1111500010716000108160001091600010a1600010b1600010c1600010d160001;
0x10e1600010f160001101600010a1700010b1700010c1700010d17000109000101;
0x10e0001010701010108010101090101010e0101010f0101011001010105020101;
0x1060201010702010108020101090201010e0201010f0201011002010111020101;
0x11202010104030101050301010603010111030101120301011303010103040101;
0x10404010105040101120401011304010114040101020501010305010104050101;
0x11305010114050101150501010206010103060101140601011506010101070101;
0x10207010115070101160701010108010102080101150801011608010100090101;
0x10109010102090101150901011609010117090101000e0101010e0101020e0101;
0x1150e0101160e0101170e0101010f0101020f0101150f0101160f010101100101;
0x10210010115100101161001010211010103110101141101011511010102120101;
0x10312010104120101131201011412010115120101031301010413010105130101;
0x11213010113130101141301010414010105140101061401011114010112140101;
0x11314010105150101061501010715010108150101091501010e1501010f150101;
0x11015010111150101121501010716010108160101091601010e1601010f160101;
0x110160101091701010e170101080002010f000201060102010701020108010201;
0x10f0102011001020111010201050202010602020107020201080202010f020201;
0x11002020111020201120202010403020105030201060302011103020112030201;
0x11303020103040201040402010504020112040201130402011404020102050201;
0x10305020104050201130502011405020115050201010602010206020103060201;
0x11406020115060201160602010107020102070201150702011607020100080201;
0x10108020102080201150802011608020117080201000f0201010f0201020f0201;
0x1150f0201160f0201170f02010110020102100201151002011610020101110201;
0x10211020103110201141102011511020116110201021202010312020104120201;
0x11312020114120201151202010313020104130201051302011213020113130201;
0x11413020104140201051402010614020111140201121402011314020105150201;
0x10615020107150201081502010f15020110150201111502011215020106160201;
0x107160201081602010f1602011016020111160201081702010f17020108000301;
0x10f0003010601030107010301080103010f010301100103011101030105020301;
0x10602030107020301080203010f02030110020301110203011202030104030301;
0x10503030106030301110303011203030113030301030403010404030113040301;
0x11404030102050301030503011405030115050301010603010206030103060301;
0x11406030115060301160603010107030102070301150703011607030100080301;
0x10108030102080301150803011608030117080301000f0301010f0301020f0301;
0x1150f0301160f0301170f03010110030102100301151003011610030101110301;
0x10211030103110301141103011511030116110301021203010312030114120301;
0x11512030103130301041303011313030114130301041403010514030106140301;
0x1111403011214030113140301051503010615030107150301081503010f150301;
0x11015030111150301121503010616030107160301081603010f16030110160301;
0x111160301081703010f170301080004010f000401060104010701040108010401;
0x10f0104011001040111010401050204010602040107020401080204010f020401;
0x11002040111020401120204010403040105030401060304011103040112030401;
0x11303040103040401040404011304040114040401020504010305040114050401;
0x11505040101060401020604010306040114060401150604011606040101070401;
0x10207040115070401160704010008040101080401020804011508040116080401;
0x117080401000f0401010f0401020f0401150f0401160f0401170f040101100401;
0x10210040115100401161004010111040102110401031104011411040115110401;
0x11611040102120401031204011412040115120401031304010413040113130401;
0x11413040104140401051404010614040111140401121404011314040105150401;
0x10615040107150401081504010f15040110150401111504011215040106160401;
0x107160401081604010f1604011016040111160401081704010f17040108000501;
0x10f0005010601050107010501080105010f010501100105011101050105020501;
0x10602050107020501080205010f02050110020501110205011202050104030501;
0x10503050106030501110305011203050113030501030405010404050105040501;
0x11204050113040501140405010205050103050501040505011305050114050501;
0x11505050101060501020605010306050114060501150605011606050101070501;
0x10207050115070501160705010008050101080501020805011508050116080501;
0x117080501000f0501010f0501020f0501150f0501160f0501170f050101100501;
0x10210050115100501161005010111050102110501031105011411050115110501;
0x11611050102120501031205010412050113120501141205011512050103130501;
0x10413050105130501121305011313050114130501041405010514050106140501;
0x1111405011214050113140501051505010615050107150501081505010f150501;
0x11015050111150501121505010616050107160501081605010f16050110160501;
0x111160501081705010f170501090006010e000601070106010801060109010601;
0x10e0106010f010601100106010502060106020601070206010802060109020601;
0x10e0206010f020601100206011102060112020601040306010503060106030601;
0x11103060112030601130306010304060104040601050406011204060113040601;
0x11404060102050601030506010405060113050601140506011505060102060601;
0x10306060114060601150606010107060102070601150706011607060101080601;
0x10208060115080601160806010009060101090601020906011509060116090601;
0x117090601000e0601010e0601020e0601150e0601160e0601170e0601010f0601;
0x1020f0601150f0601160f06010110060102100601151006011610060102110601;
0x10311060114110601151106010212060103120601041206011312060114120601;
0x11512060103130601041306010513060112130601131306011413060104140601;
0x10514060106140601111406011214060113140601051506010615060107150601;
0x108150601091506010e1506010f15060110150601111506011215060107160601;
0x108160601091606010e1606010f16060110160601091706010e1706010a000701;
0x10b0007010c0007010d0007010701070108010701090107010a0107010b010701;
0x10c0107010d0107010e0107010f01070110010701060207010702070108020701;
0x1090207010a0207010b0207010c0207010d0207010e0207010f02070110020701;
0x1110207010403070105030701060307010703070108030701090307010a030701;
0x10b0307010c0307010d0307010e0307010f030701100307011103070112030701;
0x11303070103040701040407010504070106040701070407010804070109040701;
0x10a0407010b0407010c0407010d0407010e0407010f0407011004070111040701;
0x11204070113040701140407010305070104050701050507010605070107050701;
0x108050701090507010a0507010b0507010c0507010d0507010e0507010f050701;
0x11005070111050701120507011305070114050701020607010306070104060701;
0x105060701060607010706070108060701090607010a0607010b0607010c060701;
0x10d0607010e0607010f0607011006070111060701120607011306070114060701;
0x11506070101070701020707010307070104070701050707010607070107070701;
0x108070701090707010a0707010b0707010c0707010d0707010e0707010f070701;
0x11007070111070701120707011307070114070701150707011607070101080701;
0x10208070103080701040807010508070106080701070807010808070109080701;
0x10a0807010b0807010c0807010d0807010e0807010f0807011008070111080701;
0x11208070113080701140807011508070116080701010907010209070103090701;
0x10409070105090701060907010709070108090701090907010a0907010b090701;
0x10c0907010d0907010e0907010f09070110090701110907011209070113090701;
0x1140907011509070116090701000a0701010a0701020a0701030a0701040a0701;
0x1050a0701060a0701070a0701080a0701090a07010a0a07010b0a07010c0a0701;
0x10d0a07010e0a07010f0a0701100a0701110a0701120a0701130a0701140a0701;
0x1150a0701160a0701170a0701000b0701010b0701020b0701030b0701040b0701;
0x1050b0701060b0701070b0701080b0701090b07010a0b07010b0b07010c0b0701;
0x10d0b07010e0b07010f0b0701100b0701110b0701120b0701130b0701140b0701;
0x1150b0701160b0701170b0701000c0701010c0701020c0701030c0701040c0701;
0x1050c0701060c0701070c0701080c0701090c07010a0c07010b0c07010c0c0701;
0x10d0c07010e0c07010f0c0701100c0701110c0701120c0701130c0701140c0701;
0x1150c0701160c0701170c0701000d0701010d0701020d0701030d0701040d0701;
0x1050d0701060d0701070d0701080d0701090d07010a0d07010b0d07010c0d0701;
0x10d0d07010e0d07010f0d0701100d0701110d0701120d0701130d0701140d0701;
0x1150d0701160d0701170d0701010e0701020e0701030e0701040e0701050e0701;
0x1060e0701070e0701080e0701090e07010a0e07010b0e07010c0e07010d0e0701;
0x10e0e07010f0e0701100e0701110e0701120e0701130e0701140e0701150e0701;
0x1160e0701010f0701020f0701030f0701040f0701050f0701060f0701070f0701;
0x1080f0701090f07010a0f07010b0f07010c0f07010d0f07010e0f07010f0f0701;
0x1100f0701110f0701120f0701130f0701140f0701150f0701160f070101100701;
0x10210070103100701041007010510070106100701071007010810070109100701;
0x10a1007010b1007010c1007010d1007010e1007010f1007011010070111100701;
0x11210070113100701141007011510070116100701021107010311070104110701;
0x105110701061107010711070108110701091107010a1107010b1107010c110701;
0x10d1107010e1107010f1107011011070111110701121107011311070114110701;
0x11511070103120701041207010512070106120701071207010812070109120701;
0x10a1207010b1207010c1207010d1207010e1207010f1207011012070111120701;
0x11212070113120701141207010313070104130701051307010613070107130701;
0x108130701091307010a1307010b1307010c1307010d1307010e1307010f130701;
0x11013070111130701121307011313070114130701041407010514070106140701;
0x10714070108140701091407010a1407010b1407010c1407010d1407010e140701;
0x10f14070110140701111407011214070113140701061507010715070108150701;
0x1091507010a1507010b1507010c1507010d1507010e1507010f15070110150701;
0x1111507010716070108160701091607010a1607010b1607010c1607010d160701;
0x10e1607010f160701101607010a1707010b1707010c1707010d17070152474241;
0x1000400000000000000000000f0f0f0fff0f0f0fff0f0f0fff0f0f0fff0f0f0ff;
0x1f0f0f0fff0f0f0fff0f0f0fff0f0f0fff0f0f0fff0f0f0fff0f0f0fff0f0f0ff;
0x1f0f0f0fff0f0f0fff0f0f0fff0f0f0fff0f0f0fff0f0f0fff0f0f0fff0f0f0ff;
0x1f0f0f0fff0f0f0fff0f0f0fff0f0f0fff0f0f0fff0f0f0fff0f0f0fff0f0f0ff;
0x1f0f0f0fff0f0f0fff0f0f0fff0f0f0fff0f0f0fff0f0f0fff0f0f0fff0f0f0ff;
0x1f0f0f0fff0f0f0fff0f0f0fff0f0f0fff0f0f0fff0f0f0fff0f0f0fff0f0f0ff;
0x1f0f0f0fff0f0f0fff0f0f0fff0f0f0fff0f0f0fff0f0f0fff0f0f0fff0f0f0ff;
0x1f0f0f0fff0f0f0fff0f0f0fff0f0f0fff0f0f0fff0f0f0fff0f0f0fff0f0f0ff;
0x1f0f0f0fff0f0f0fff0f0f0fff0f0f0fff0f0f0fff0f0f0fff0f0f0fff0f0f0ff;
0x1f0f0f0fff0f0f0fff0f0f0fff0f0f0fff0f0f0fff0f0f0fff0f0f0fff0f0f0ff;
0x1f0f0f0fff0f0f0fff0f0f0fff0f0f0fff0f0f0fff0f0f0fff0f0f0fff0f0f0ff;
0x1f0f0f0fff0f0f0fff0f0f0fff0f0f0fff0f0f0fff0f0f0fff0f0f0fff0f0f0ff;
0x1f0f0f0fff0f0f0fff0f0f0fff0f0f0fff0f0f0fff0f0f0fff0f0f0fff0f0f0ff;
0x1f0f0f0fff0f0f0fff0f0f0fff0f0f0fff0f0f0fff0f0f0fff0f0f0fff0f0f0ff;
0x1f0f0f0fff0f0f0fff0f0f0fff0f0f0fff0f0f0fff0f0f0fff0f0f0fff0f0f0ff;
0x1f0f0f0fff0f0f0fff0f0f0fff0f0f0fff0f0f0fff0f0f0fff0f0f0fff0f0f0ff;
0x1f0f0f0fff0f0f0fff0f0f0fff0f0f0fff0f0f0fff0f0f0fff0f0f0fff0f0f0ff;
0x1f0f0f0fff0f0f0fff0f0f0fff0f0f0fff0f0f0fff0f0f0fff0f0f0fff0f0f0ff;
0x1f0f0f0fff0f0f0fff0f0f0fff0f0f0fff0f0f0fff0f0f0fff0f0f0fff0f0f0ff;
0x1f0f0f0fff0f0f0fff0f0f0fff0f0f0fff0f0f0fff0f0f0fff0f0f0fff0f0f0ff;
0x1f0f0f0fff0f0f0fff0f0f0fff0f0f0fff0f0f0fff0f0f0fff0f0f0fff0f0f0ff;
0x1f0f0f0fff0f0f0fff0f0f0fff0f0f0fff0f0f0fff0f0f0fff0f0f0fff0f0f0ff;
0x1f0f0f0fff0f0f0fff0f0f0fff0f0f0fff0f0f0fff0f0f0fff0f0f0fff0f0f0ff;
0x1f0f0f0fff0f0f0fff0f0f0fff0f0f0fff0f0f0ff000000000000000000000000;
0x10000000000000000000000000000000000000000000000000000000000000000;
0x10000000000000000000000000000000000000000000000000000000000000000;
0x10000000000000000000000000000000000000000000000000000000000000000;
0x10000000000000000000000000000000000000000000000000000000000000000;
0x10000000000000000000000000000000000000000000000000000000000000000;
0x10000000000000000000000000000000000000000000000000000000000000000;
0x10000000000000000000000000000000000000000000000000000000000000000;
0x10000000000000000000000000000000000000000000000000000000000000000;
0x10000000000000000].
(** redeclipse/prefabs/spacestation/station_stair2.vox (2376 bytes) *)
Definition vox_spacestation_station_stair2 : list Z := [
0x1564f5820960000004d41494e000000003409000053495a450c00000000000000;
0x110000000080000000f00000058595a4904050000000000004001000000020001;
0x10102000100030001010300010004000101040001000500010105000100010101;
0x10101010102020101030201010203010103030101020401010304010102050101;
0x10305010100060101010601010000020101000201020102010301020104020201;
0x10502020104030201050302010404020105040201040502010505020102060201;
0x10306020100070201010702010000030101000301020003010300030104010301;
0x10501030106020301070203010603030107030301060403010704030106050301;
0x10705030104060301050603010007030101070301020703010307030100000401;
0x10100040102000401030004010400040105000401060104010701040108020401;
0x10902040108030401090304010804040109040401080504010905040106060401;
0x10706040100070401010704010207040103070401040704010507040100000501;
0x10100050102000501030005010400050105000501060005010700050108010501;
0x1090105010a0205010b0205010a0305010b0305010a0405010b0405010a050501;
0x10b05050108060501090605010007050101070501020705010307050104070501;
0x10507050106070501070705010200060103000601040006010500060106000601;
0x107000601080006010900060100010601010106010a0106010b0106010c020601;
0x10d0206010c0306010d0306010c0406010d0406010c0506010d05060100060601;
0x1010606010a0606010b0606010207060103070601040706010507060106070601;
0x10707060108070601090706010400070105000701060007010700070108000701;
0x1090007010a0007010b00070102010701030107010c0107010d01070100020701;
0x1010207010e0207010f02070100030701010307010e0307010f03070100040701;
0x1010407010e0407010f04070100050701010507010e0507010f05070102060701;
0x1030607010c0607010d0607010407070105070701060707010707070108070701;
0x1090707010a0707010b070701060008010700080108000801090008010a000801;
0x10b0008010c0008010d00080104010801050108010e0108010f01080102020801;
0x10302080102030801030308010204080103040801020508010305080104060801;
0x1050608010e0608010f060801060708010707080108070801090708010a070801;
0x10b0708010c0708010d07080108000901090009010a0009010b0009010c000901;
0x10d0009010e0009010f0009010601090107010901040209010502090104030901;
0x10503090104040901050409010405090105050901060609010706090108070901;
0x1090709010a0709010b0709010c0709010d0709010e0709010f0709010a000a01;
0x10b000a010c000a010d000a010e000a010f000a0108010a0109010a0106020a01;
0x107020a0106030a0107030a0106040a0107040a0106050a0107050a0108060a01;
0x109060a010a070a010b070a010c070a010d070a010e070a010f070a010c000b01;
0x10d000b010e000b010f000b010a010b010b010b0108020b0109020b0108030b01;
0x109030b0108040b0109040b0108050b0109050b010a060b010b060b010c070b01;
0x10d070b010e070b010f070b010e000c010f000c010c010c010d010c010a020c01;
0x10b020c010a030c010b030c010a040c010b040c010a050c010b050c010c060c01;
0x10d060c010e070c010f070c010e010d010f010d010c020d010d020d010c030d01;
0x10d030d010c040d010d040d010c050d010d050d010e060d010f060d010e020e01;
0x10f020e010e030e010f030e010e040e010f040e010e050e010f050e0152474241;
0x1000400000000000000000000f0f0f0fff0f0f0fff0f0f0fff0f0f0fff0f0f0ff;
0x1f0f0f0fff0f0f0fff0f0f0fff0f0f0fff0f0f0fff0f0f0fff0f0f0fff0f0f0ff;
0x1f0f0f0fff0f0f0fff0f0f0fff0f0f0fff0f0f0fff0f0f0fff0f0f0fff0f0f0ff;
0x1f0f0f0fff0f0f0fff0f0f0fff0f0f0fff0f0f0fff0f0f0fff0f0f0fff0f0f0ff;
0x1f0f0f0fff0f0f0fff0f0f0fff0f0f0fff0f0f0fff0f0f0fff0f0f0fff0f0f0ff;
0x1f0f0f0fff0f0f0fff0f0f0fff0f0f0fff0f0f0fff0f0f0fff0f0f0fff0f0f0ff;
0x1f0f0f0fff0f0f0fff0f0f0fff0f0f0fff0f0f0fff0f0f0fff0f0f0fff0f0f0ff;
0x1f0f0f0fff0f0f0fff0f0f0fff0f0f0fff0f0f0fff0f0f0fff0f0f0fff0f0f0ff;
0x1f0f0f0fff0f0f0fff0f0f0fff0f0f0fff0f0f0fff0f0f0fff0f0f0fff0f0f0ff;
0x1f0f0f0fff0f0f0fff0f0f0fff0f0f0fff0f0f0fff0f0f0fff0f0f0fff0f0f0ff;
0x1f0f0f0fff0f0f0fff0f0f0fff0f0f0fff0f0f0fff0f0f0fff0f0f0fff0f0f0ff;
0x1f0f0f0fff0f0f0fff0f0f0fff0f0f0fff0f0f0fff0f0f0fff0f0f0fff0f0f0ff;
0x1f0f0f0fff0f0f0fff0f0f0fff0f0f0fff0f0f0fff0f0f0fff0f0f0fff0f0f0ff;
0x1f0f0f0fff0f0f0fff0f0f0fff0f0f0fff0f0f0fff0f0f0fff0f0f0fff0f0f0ff;
0x1f0f0f0fff0f0f0fff0f0f0fff0f0f0fff0f0f0fff0f0f0fff0f0f0fff0f0f0ff;
0x1f0f0f0fff0f0f0fff0f0f0fff0f0f0fff0f0f0fff0f0f0fff0f0f0fff0f0f0ff;
0x1f0f0f0fff0f0f0fff0f0f0fff0f0f0fff0f0f0fff0f0f0fff0f0f0fff0f0f0ff;
0x1f0f0f0fff0f0f0fff0f0f0fff0f0f0fff0f0f0fff0f0f0fff0f0f0fff0f0f0ff;
0x1f0f0f0fff0f0f0fff0f0f0fff0f0f0fff0f0f0fff0f0f0fff0f0f0fff0f0f0ff;
0x1f0f0f0fff0f0f0fff0f0f0fff0f0f0fff0f0f0fff0f0f0fff0f0f0ff00000000;
0x10000000000000000000000000000000000000000000000000000000000000000;
0x10000000000000000000000000000000000000000000000000000000000000000;
0x10000000000000000000000000000000000000000000000000000000000000000;
0x10000000000000000000000000000000000000000000000000000000000000000;
0x10000000000000000000000000000000000000000000000000000000000000000;
0x10000000000000000000000000000000000000000000000000000000000000000;
0x10000000000000000000000000000000000000000000000000000000000000000;
0x10000000000000000000000000000000000000000000000000000000000000000;
0x10000000000000000000000000000000000000000000000000000000000000000;
0x10000000000000000000000000000000000000000000000000000000000000000;
0x10000000000000000000000000000000000000000000000000000000000000000;
0x10000000000000000000000000000000000000000000000000000000000000000;
0x10000000000000000].
(** redeclipse/prefabs/spacestation/station_tube1.vox (1736 bytes) *)
Definition vox_spacestation_station_tube1 : list Z := [
0x1564f5820960000004d41494e00000000b406000053495a450c00000000000000;
0x108000000080000000800000058595a498402000000000000a000000000020001;
0x10102000102020001030200010402000105020001060200010702000100030001;
0x10103000102030001030300010403000105030001060300010703000100040001;
0x10104000102040001030400010404000105040001060400010704000100050001;
0x10105000102050001030500010405000105050001060500010705000100010101;
0x10101010102010101030101010401010105010101060101010701010100060101;
0x10106010102060101030601010406010105060101060601010706010100000201;
0x10100020102000201030002010400020105000201060002010700020100070201;
0x10107020102070201030702010407020105070201060702010707020100000301;
0x10100030102000301030003010400030105000301060003010700030100070301;
0x10107030102070301030703010407030105070301060703010707030100000401;
0x10100040102000401030004010400040105000401060004010700040100070401;
0x10107040102070401030704010407040105070401060704010707040100000501;
0x10100050102000501030005010400050105000501060005010700050100070501;
0x10107050102070501030705010407050105070501060705010707050100010601;
0x10101060102010601030106010401060105010601060106010701060100060601;
0x10106060102060601030606010406060105060601060606010706060100020701;
0x10102070102020701030207010402070105020701060207010702070100030701;
0x10103070102030701030307010403070105030701060307010703070100040701;
0x10104070102040701030407010404070105040701060407010704070100050701;
0x10105070102050701030507010405070105050701060507010705070152474241;
0x1000400000000000000000000f0f0f0fff0f0f0fff0f0f0fff0f0f0fff0f0f0ff;
0x1f0f0f0fff0f0f0fff0f0f0fff0f0f0fff0f0f0fff0f0f0fff0f0f0fff0f0f0ff;
0x1f0f0f0fff0f0f0fff0f0f0fff0f0f0fff0f0f0fff0f0f0fff0f0f0fff0f0f0ff;
0x1f0f0f0fff0f0f0fff0f0f0fff0f0f0fff0f0f0fff0f0f0fff0f0f0fff0f0f0ff;
0x1f0f0f0fff0f0f0fff0f0f0fff0f0f0fff0f0f0fff0f0f0fff0f0f0fff0f0f0ff;
0x1f0f0f0fff0f0f0fff0f0f0fff0f0f0fff0f0f0fff0f0f0fff0f0f0fff0f0f0ff;
0x1f0f0f0fff0f0f0fff0f0f0fff0f0f0fff0f0f0fff0f0f0fff0f0f0fff0f0f0ff;
0x1f0f0f0fff0f0f0fff0f0f0fff0f0f0fff0f0f0fff0f0f0fff0f0f0fff0f0f0ff;
0x1f0f0f0fff0f0f0fff0f0f0fff0f0f0fff0f0f0fff0f0f0fff0f0f0fff0f0f0ff;
0x1f0f0f0fff0f0f0fff0f0f0fff0f0f0fff0f0f0fff0f0f0fff0f0f0fff0f0f0ff;
0x1f0f0f0fff0f0f0fff0f0f0fff0f0f0fff0f0f0fff0f0f0fff0f0f0fff0f0f0ff;
0x1f0f0f0fff0f0f0fff0f0f0fff0f0f0fff0f0f0fff0f0f0fff0f0f0fff0f0f0ff;
0x1f0f0f0fff0f0f0fff0f0f0fff0f0f0fff0f0f0fff0f0f0fff0f0f0fff0f0f0ff;
0x1f0f0f0fff0f0f0fff0f0f0fff0f0f0fff0f0f0fff0f0f0fff0f0f0fff0f0f0ff;
0x1f0f0f0fff0f0f0fff0f0f0fff0f0f0fff0f0f0fff0f0f0fff0f0f0fff0f0f0ff;
0x1f0f0f0fff0f0f0fff0f0f0fff0f0f0fff0f0f0ff000000000000000000000000;
0x10000000000000000000000000000000000000000000000000000000000000000;
0x10000000000000000000000000000000000000000000000000000000000000000;
0x10000000000000000000000000000000000000000000000000000000000000000;
0x10000000000000000000000000000000000000000000000000000000000000000;
0x10000000000000000000000000000000000000000000000000000000000000000;
0x10000000000000000000000000000000000000000000000000000000000000000;
0x10000000000000000000000000000000000000000000000000000000000000000;
0x10000000000000000000000000000000000000000000000000000000000000000;
0x10000000000000000000000000000000000000000000000000000000000000000;
0x10000000000000000000000000000000000000000000000000000000000000000;
0x10000000000000000000000000000000000000000000000000000000000000000;
0x10000000000000000000000000000000000000000000000000000000000000000;
0x10000000000000000000000000000000000000000000000000000000000000000;
0x10000000000000000000000000000000000000000000000000000000000000000;
0x10000000000000000000000000000000000000000000000000000000000000000;
0x10000000000000000000000000000000000000000000000000000000000000000;
0x10000000000000000].
(** redeclipse/prefabs/spacestation/station_tube3.vox (3016 bytes) *)
Definition vox_spacestation_station_tube3 : list Z := [
0x1564f5820960000004d41494e00000000b40b000053495a450c00000000000000;
0x118000000080000000800000058595a498407000000000000e001000000020001;
0x10102000102020001030200010402000105020001060200010702000108020001;
0x1090200010a0200010b0200010c0200010d0200010e0200010f02000110020001;
0x11102000112020001130200011402000115020001160200011702000100030001;
0x10103000102030001030300010403000105030001060300010703000108030001;
0x1090300010a0300010b0300010c0300010d0300010e0300010f03000110030001;
0x11103000112030001130300011403000115030001160300011703000100040001;
0x10104000102040001030400010404000105040001060400010704000108040001;
0x1090400010a0400010b0400010c0400010d0400010e0400010f04000110040001;
0x11104000112040001130400011404000115040001160400011704000100050001;
0x10105000102050001030500010405000105050001060500010705000108050001;
0x1090500010a0500010b0500010c0500010d0500010e0500010f05000110050001;
0x11105000112050001130500011405000115050001160500011705000100010101;
0x10101010102010101030101010401010105010101060101010701010108010101;
0x1090101010a0101010b0101010c0101010d0101010e0101010f01010110010101;
0x11101010112010101130101011401010115010101160101011701010100060101;
0x10106010102060101030601010406010105060101060601010706010108060101;
0x1090601010a0601010b0601010c0601010d0601010e0601010f06010110060101;
0x11106010112060101130601011406010115060101160601011706010100000201;
0x10100020102000201030002010400020105000201060002010700020108000201;
0x1090002010a0002010b0002010c0002010d0002010e0002010f00020110000201;
0x11100020112000201130002011400020115000201160002011700020100070201;
0x10107020102070201030702010407020105070201060702010707020108070201;
0x1090702010a0702010b0702010c0702010d0702010e0702010f07020110070201;
0x11107020112070201130702011407020115070201160702011707020100000301;
0x10100030102000301030003010400030105000301060003010700030108000301;
0x1090003010a0003010b0003010c0003010d0003010e0003010f00030110000301;
0x11100030112000301130003011400030115000301160003011700030100070301;
0x10107030102070301030703010407030105070301060703010707030108070301;
0x1090703010a0703010b0703010c0703010d0703010e0703010f07030110070301;
0x11107030112070301130703011407030115070301160703011707030100000401;
0x10100040102000401030004010400040105000401060004010700040108000401;
0x1090004010a0004010b0004010c0004010d0004010e0004010f00040110000401;
0x11100040112000401130004011400040115000401160004011700040100070401;
0x10107040102070401030704010407040105070401060704010707040108070401;
0x1090704010a0704010b0704010c0704010d0704010e0704010f07040110070401;
0x11107040112070401130704011407040115070401160704011707040100000501;
0x10100050102000501030005010400050105000501060005010700050108000501;
0x1090005010a0005010b0005010c0005010d0005010e0005010f00050110000501;
0x11100050112000501130005011400050115000501160005011700050100070501;
0x10107050102070501030705010407050105070501060705010707050108070501;
0x1090705010a0705010b0705010c0705010d0705010e0705010f07050110070501;
0x11107050112070501130705011407050115070501160705011707050100010601;
0x10101060102010601030106010401060105010601060106010701060108010601;
0x1090106010a0106010b0106010c0106010d0106010e0106010f01060110010601;
0x11101060112010601130106011401060115010601160106011701060100060601;
0x10106060102060601030606010406060105060601060606010706060108060601;
0x1090606010a0606010b0606010c0606010d0606010e0606010f06060110060601;
0x11106060112060601130606011406060115060601160606011706060100020701;
0x10102070102020701030207010402070105020701060207010702070108020701;
0x1090207010a0207010b0207010c0207010d0207010e0207010f02070110020701;
0x11102070112020701130207011402070115020701160207011702070100030701;
0x10103070102030701030307010403070105030701060307010703070108030701;
0x1090307010a0307010b0307010c0307010d0307010e0307010f03070110030701;
0x11103070112030701130307011403070115030701160307011703070100040701;
0x10104070102040701030407010404070105040701060407010704070108040701;
0x1090407010a0407010b0407010c0407010d0407010e0407010f04070110040701;
0x11104070112040701130407011404070115040701160407011704070100050701;
0x10105070102050701030507010405070105050701060507010705070108050701;
0x1090507010a0507010b0507010c0507010d0507010e0507010f05070110050701;
0x11105070112050701130507011405070115050701160507011705070152474241;
0x1000400000000000000000000f0f0f0fff0f0f0fff0f0f0fff0f0f0fff0f0f0ff;
0x1f0f0f0fff0f0f0fff0f0f0fff0f0f0fff0f0f0fff0f0f0fff0f0f0fff0f0f0ff;
0x1f0f0f0fff0f0f0fff0f0f0fff0f0f0fff0f0f0fff0f0f0fff0f0f0fff0f0f0ff;
0x1f0f0f0fff0f0f0fff0f0f0fff0f0f0fff0f0f0fff0f0f0fff0f0f0fff0f0f0ff;
0x1f0f0f0fff0f0f0fff0f0f0fff0f0f0fff0f0f0fff0f0f0fff0f0f0fff0f0f0ff;
0x1f0f0f0fff0f0f0fff0f0f0fff0f0f0fff0f0f0fff0f0f0fff0f0f0fff0f0f0ff;
0x1f0f0f0fff0f0f0fff0f0f0fff0f0f0fff0f0f0fff0f0f0fff0f0f0fff0f0f0ff;
0x1f0f0f0fff0f0f0fff0f0f0fff0f0f0fff0f0f0fff0f0f0fff0f0f0fff0f0f0ff;
0x1f0f0f0fff0f0f0fff0f0f0fff0f0f0fff0f0f0fff0f0f0fff0f0f0fff0f0f0ff;
0x1f0f0f0fff0f0f0fff0f0f0fff0f0f0fff0f0f0fff0f0f0fff0f0f0fff0f0f0ff;
0x1f0f0f0fff0f0f0fff0f0f0fff0f0f0fff0f0f0fff0f0f0fff0f0f0fff0f0f0ff;
0x1f0f0f0fff0f0f0fff0f0f0fff0f0f0fff0f0f0fff0f0f0fff0f0f0fff0f0f0ff;
0x1f0f0f0fff0f0f0fff0f0f0fff0f0f0fff0f0f0fff0f0f0fff0f0f0fff0f0f0ff;
0x1f0f0f0fff0f0f0fff0f0f0fff0f0f0fff0f0f0fff0f0f0fff0f0f0fff0f0f0ff;
0x1f0f0f0fff0f0f0fff0f0f0fff0f0f0fff0f0f0fff0f0f0fff0f0f0fff0f0f0ff;
0x1f0f0f0fff0f0f0fff0f0f0fff0f0f0fff0f0f0fff0f0f0fff0f0f0fff0f0f0ff;
0x1f0f0f0fff0f0f0fff0f0f0fff0f0f0fff0f0f0fff0f0f0fff0f0f0fff0f0f0ff;
0x1f0f0f0fff0f0f0fff0f0f0fff0f0f0fff0f0f0fff0f0f0fff0f0f0fff0f0f0ff;
0x1f0f0f0fff0f0f0fff0f0f0fff0f0f0fff0f0f0fff0f0f0fff0f0f0fff0f0f0ff;
0x1f0f0f0fff0f0f0fff0f0f0fff0f0f0fff0f0f0fff0f0f0fff0f0f0fff0f0f0ff;
0x1f0f0f0fff0f0f0fff0f0f0fff0f0f0fff0f0f0fff0f0f0fff0f0f0fff0f0f0ff;
0x1f0f0f0fff0f0f0fff0f0f0fff0f0f0fff0f0f0fff0f0f0ff0000000000000000;
0x10000000000000000000000000000000000000000000000000000000000000000;
0x10000000000000000000000000000000000000000000000000000000000000000;
0x10000000000000000000000000000000000000000000000000000000000000000;
0x10000000000000000000000000000000000000000000000000000000000000000;
0x10000000000000000000000000000000000000000000000000000000000000000;
0x10000000000000000000000000000000000000000000000000000000000000000;
0x10000000000000000000000000000000000000000000000000000000000000000;
0x10000000000000000000000000000000000000000000000000000000000000000;
0x10000000000000000000000000000000000000000000000000000000000000000;
0x10000000000000000000000000000000000000000000000000000000000000000;
0x10000000000000000].
(** redeclipse/prefabs/spacestation/station_tube3layered.vox (5480 bytes) *)
Definition vox_spacestation_station_tube3layered : list Z := [
0x1564f5820960000004d41494e000000005415000053495a450c00000000000000;
0x118000000080000001800000058595a4924110000000000004804000000020001;
0x10102000102020001030200010402000105020001060200010702000108020001;
0x1090200010a0200010b0200010c0200010d0200010e0200010f02000110020001;
0x11102000112020001130200011402000115020001160200011702000100030001;
0x10103000102030001030300010403000105030001060300010703000108030001;
0x1090300010a0300010b0300010c0300010d0300010e0300010f03000110030001;
0x11103000112030001130300011403000115030001160300011703000100040001;
0x10104000102040001030400010404000105040001060400010704000108040001;
0x1090400010a0400010b0400010c0400010d0400010e0400010f04000110040001;
0x11104000112040001130400011404000115040001160400011704000100050001;
0x10105000102050001030500010405000105050001060500010705000108050001;
0x1090500010a0500010b0500010c0500010d0500010e0500010f05000110050001;
0x11105000112050001130500011405000115050001160500011705000100010101;
0x10101010102010101030101010401010105010101060101010701010108010101;
0x1090101010a0101010b0101010c0101010d0101010e0101010f01010110010101;
0x11101010112010101130101011401010115010101160101011701010100060101;
0x10106010102060101030601010406010105060101060601010706010108060101;
0x1090601010a0601010b0601010c0601010d0601010e0601010f06010110060101;
0x11106010112060101130601011406010115060101160601011706010100000201;
0x10100020102000201030002010400020105000201060002010700020108000201;
0x1090002010a0002010b0002010c0002010d0002010e0002010f00020110000201;
0x11100020112000201130002011400020115000201160002011700020100070201;
0x10107020102070201030702010407020105070201060702010707020108070201;
0x1090702010a0702010b0702010c0702010d0702010e0702010f07020110070201;
0x11107020112070201130702011407020115070201160702011707020100000301;
0x10100030102000301030003010400030105000301060003010700030108000301;
0x1090003010a0003010b0003010c0003010d0003010e0003010f00030110000301;
0x11100030112000301130003011400030115000301160003011700030100070301;
0x10107030102070301030703010407030105070301060703010707030108070301;
0x1090703010a0703010b0703010c0703010d0703010e0703010f07030110070301;
0x11107030112070301130703011407030115070301160703011707030100000401;
0x10100040102000401030004010400040105000401060004010700040108000401;
0x1090004010a0004010b0004010c0004010d0004010e0004010f00040110000401;
0x11100040112000401130004011400040115000401160004011700040100070401;
0x10107040102070401030704010407040105070401060704010707040108070401;
0x1090704010a0704010b0704010c0704010d0704010e0704010f07040110070401;
0x11107040112070401130704011407040115070401160704011707040100000501;
0x10100050102000501030005010400050105000501060005010700050108000501;
0x1090005010a0005010b0005010c0005010d0005010e0005010f00050110000501;
0x11100050112000501130005011400050115000501160005011700050100070501;
0x10107050102070501030705010407050105070501060705010707050108070501;
0x1090705010a0705010b0705010c0705010d0705010e0705010f07050110070501;
0x1110705011207050113070501140705011507050116070501170705010a000601;
0x10b0006010c0006010d0006010001060101010601020106010301060104010601;
0x105010601060106010701060108010601090106010e0106010f01060110010601;
0x11101060112010601130106011401060115010601160106011701060100060601;
0x10106060102060601030606010406060105060601060606010706060108060601;
0x1090606010e0606010f0606011006060111060601120606011306060114060601;
0x11506060116060601170606010a0706010b0706010c0706010d0706010a000701;
0x10b0007010c0007010d000701090107010e010701000207010102070102020701;
0x10302070104020701050207010602070107020701080207010f02070110020701;
0x11102070112020701130207011402070115020701160207011702070100030701;
0x10103070102030701030307010403070105030701060307010703070108030701;
0x10f03070110030701110307011203070113030701140307011503070116030701;
0x11703070100040701010407010204070103040701040407010504070106040701;
0x107040701080407010f0407011004070111040701120407011304070114040701;
0x11504070116040701170407010005070101050701020507010305070104050701;
0x1050507010605070107050701080507010f050701100507011105070112050701;
0x11305070114050701150507011605070117050701090607010e0607010a070701;
0x10b0707010c0707010d0707010a0008010b0008010c0008010d00080109010801;
0x10e010801080208010f020801080308010f030801080408010f04080108050801;
0x10f050801090608010e0608010a0708010b0708010c0708010d0708010a000901;
0x10b0009010c0009010d000901090109010e010901080209010f02090108030901;
0x10f030901080409010f040901080509010f050901090609010e0609010a070901;
0x10b0709010c0709010d0709010a000a010b000a010c000a010d000a0109010a01;
0x10e010a0108020a010f020a0108030a010f030a0108040a010f040a0108050a01;
0x10f050a0109060a010e060a010a070a010b070a010c070a010d070a010a000b01;
0x10b000b010c000b010d000b0109010b010e010b0108020b010f020b0108030b01;
0x10f030b0108040b010f040b0108050b010f050b0109060b010e060b010a070b01;
0x10b070b010c070b010d070b010a000c010b000c010c000c010d000c0109010c01;
0x10e010c0108020c010f020c0108030c010f030c0108040c010f040c0108050c01;
0x10f050c0109060c010e060c010a070c010b070c010c070c010d070c010a000d01;
0x10b000d010c000d010d000d0109010d010e010d0108020d010f020d0108030d01;
0x10f030d0108040d010f040d0108050d010f050d0109060d010e060d010a070d01;
0x10b070d010c070d010d070d010a000e010b000e010c000e010d000e0109010e01;
0x10e010e0108020e010f020e0108030e010f030e0108040e010f040e0108050e01;
0x10f050e0109060e010e060e010a070e010b070e010c070e010d070e010a000f01;
0x10b000f010c000f010d000f0109010f010e010f0108020f010f020f0108030f01;
0x10f030f0108040f010f040f0108050f010f050f0109060f010e060f010a070f01;
0x10b070f010c070f010d070f010a0010010b0010010c0010010d00100109011001;
0x10e01100100021001010210010202100103021001040210010502100106021001;
0x107021001080210010f0210011002100111021001120210011302100114021001;
0x11502100116021001170210010003100101031001020310010303100104031001;
0x1050310010603100107031001080310010f031001100310011103100112031001;
0x11303100114031001150310011603100117031001000410010104100102041001;
0x10304100104041001050410010604100107041001080410010f04100110041001;
0x11104100112041001130410011404100115041001160410011704100100051001;
0x10105100102051001030510010405100105051001060510010705100108051001;
0x10f05100110051001110510011205100113051001140510011505100116051001;
0x117051001090610010e0610010a0710010b0710010c0710010d0710010a001101;
0x10b0011010c0011010d0011010001110101011101020111010301110104011101;
0x105011101060111010701110108011101090111010e0111010f01110110011101;
0x11101110112011101130111011401110115011101160111011701110100061101;
0x10106110102061101030611010406110105061101060611010706110108061101;
0x1090611010e0611010f0611011006110111061101120611011306110114061101;
0x11506110116061101170611010a0711010b0711010c0711010d07110100001201;
0x10100120102001201030012010400120105001201060012010700120108001201;
0x1090012010a0012010b0012010c0012010d0012010e0012010f00120110001201;
0x11100120112001201130012011400120115001201160012011700120100071201;
0x10107120102071201030712010407120105071201060712010707120108071201;
0x1090712010a0712010b0712010c0712010d0712010e0712010f07120110071201;
0x11107120112071201130712011407120115071201160712011707120100001301;
0x10100130102001301030013010400130105001301060013010700130108001301;
0x1090013010a0013010b0013010c0013010d0013010e0013010f00130110001301;
0x11100130112001301130013011400130115001301160013011700130100071301;
0x10107130102071301030713010407130105071301060713010707130108071301;
0x1090713010a0713010b0713010c0713010d0713010e0713010f07130110071301;
0x11107130112071301130713011407130115071301160713011707130100001401;
0x10100140102001401030014010400140105001401060014010700140108001401;
0x1090014010a0014010b0014010c0014010d0014010e0014010f00140110001401;
0x11100140112001401130014011400140115001401160014011700140100071401;
0x10107140102071401030714010407140105071401060714010707140108071401;
0x1090714010a0714010b0714010c0714010d0714010e0714010f07140110071401;
0x11107140112071401130714011407140115071401160714011707140100001501;
0x10100150102001501030015010400150105001501060015010700150108001501;
0x1090015010a0015010b0015010c0015010d0015010e0015010f00150110001501;
0x11100150112001501130015011400150115001501160015011700150100071501;
0x10107150102071501030715010407150105071501060715010707150108071501;
0x1090715010a0715010b0715010c0715010d0715010e0715010f07150110071501;
0x11107150112071501130715011407150115071501160715011707150100011601;
0x10101160102011601030116010401160105011601060116010701160108011601;
0x1090116010a0116010b0116010c0116010d0116010e0116010f01160110011601;
0x11101160112011601130116011401160115011601160116011701160100061601;
0x10106160102061601030616010406160105061601060616010706160108061601;
0x1090616010a0616010b0616010c0616010d0616010e0616010f06160110061601;
0x11106160112061601130616011406160115061601160616011706160100021701;
0x10102170102021701030217010402170105021701060217010702170108021701;
0x1090217010a0217010b0217010c0217010d0217010e0217010f02170110021701;
0x11102170112021701130217011402170115021701160217011702170100031701;
0x10103170102031701030317010403170105031701060317010703170108031701;
0x1090317010a0317010b0317010c0317010d0317010e0317010f03170110031701;
0x11103170112031701130317011403170115031701160317011703170100041701;
0x10104170102041701030417010404170105041701060417010704170108041701;
0x1090417010a0417010b0417010c0417010d0417010e0417010f04170110041701;
0x11104170112041701130417011404170115041701160417011704170100051701;
0x10105170102051701030517010405170105051701060517010705170108051701;
0x1090517010a0517010b0517010c0517010d0517010e0517010f05170110051701;
0x11105170112051701130517011405170115051701160517011705170152474241;
0x1000400000000000000000000f0f0f0fff0f0f0fff0f0f0fff0f0f0fff0f0f0ff;
0x1f0f0f0fff0f0f0fff0f0f0fff0f0f0fff0f0f0fff0f0f0fff0f0f0fff0f0f0ff;
0x1f0f0f0fff0f0f0fff0f0f0fff0f0f0fff0f0f0fff0f0f0fff0f0f0fff0f0f0ff;
0x1f0f0f0fff0f0f0fff0f0f0fff0f0f0fff0f0f0fff0f0f0fff0f0f0fff0f0f0ff;
0x1f0f0f0fff0f0f0fff0f0f0fff0f0f0fff0f0f0fff0f0f0fff0f0f0fff0f0f0ff;
0x1f0f0f0fff0f0f0fff0f0f0fff0f0f0fff0f0f0fff0f0f0fff0f0f0fff0f0f0ff;
0x1f0f0f0fff0f0f0fff0f0f0fff0f0f0fff0f0f0fff0f0f0fff0f0f0fff0f0f0ff;
0x1f0f0f0fff0f0f0fff0f0f0fff0f0f0fff0f0f0fff0f0f0fff0f0f0fff0f0f0ff;
0x1f0f0f0fff0f0f0fff0f0f0fff0f0f0fff0f0f0fff0f0f0fff0f0f0fff0f0f0ff;
0x1f0f0f0fff0f0f0fff0f0f0fff0f0f0fff0f0f0fff0f0f0fff0f0f0fff0f0f0ff;
0x1f0f0f0fff0f0f0fff0f0f0fff0f0f0fff0f0f0fff0f0f0fff0f0f0fff0f0f0ff;
0x1f0f0f0fff0f0f0fff0f0f0fff0f0f0fff0f0f0fff0f0f0fff0f0f0fff0f0f0ff;
0x1f0f0f0fff0f0f0fff0f0f0fff0f0f0fff0f0f0fff0f0f0fff0f0f0fff0f0f0ff;
0x1f0f0f0fff0f0f0fff0f0f0fff0f0f0fff0f0f0fff0f0f0fff0f0f0fff0f0f0ff;
0x1f0f0f0fff0f0f0fff0f0f0fff0f0f0fff0f0f0fff0f0f0fff0f0f0fff0f0f0ff;
0x1f0f0f0fff0f0f0fff0f0f0fff0f0f0fff0f0f0fff0f0f0fff0f0f0fff0f0f0ff;
0x1f0f0f0fff0f0f0fff0f0f0fff0f0f0fff0f0f0fff0f0f0fff0f0f0fff0f0f0ff;
0x1f0f0f0fff0f0f0fff0f0f0fff0f0f0fff0f0f0fff0f0f0fff0f0f0fff0f0f0ff;
0x1f0f0f0fff0f0f0fff0f0f0fff0f0f0fff0f0f0fff0f0f0fff0f0f0fff0f0f0ff;
0x1f0f0f0fff0f0f0fff0f0f0fff0f0f0fff0f0f0fff0f0f0fff0f0f0fff0f0f0ff;
0x1f0f0f0fff0f0f0fff0f0f0fff0f0f0fff0f0f0fff0f0f0fff0f0f0fff0f0f0ff;
0x1f0f0f0fff0f0f0fff0f0f0fff0f0f0fff0f0f0fff0f0f0fff0f0f0fff0f0f0ff;
0x1f0f0f0fff0f0f0fff0f0f0fff0f0f0fff0f0f0fff0f0f0fff0f0f0fff0f0f0ff;
0x1f0f0f0fff0f0f0fff0f0f0fff0f0f0fff0f0f0ff000000000000000000000000;
0x10000000000000000000000000000000000000000000000000000000000000000;
0x10000000000000000000000000000000000000000000000000000000000000000;
0x10000000000000000000000000000000000000000000000000000000000000000;
0x10000000000000000000000000000000000000000000000000000000000000000;
0x10000000000000000000000000000000000000000000000000000000000000000;
0x10000000000000000000000000000000000000000000000000000000000000000;
0x10000000000000000000000000000000000000000000000000000000000000000;
0x10000000000000000000000000000000000000000000000000000000000000000;
0x10000000000000000].
(** redeclipse/prefabs/spacestation/station_tubeX.vox (4200 bytes) *)
Definition vox_spacestation_station_tubeX : list Z := [
0x1564f5820960000004d41494e000000005410000053495a450c00000000000000;
0x118000000180000000800000058595a49240c000000000000080300000a000001;
0x10b0000010c0000010d0000010a0100010b0100010c0100010d0100010a020001;
0x10b0200010c0200010d0200010a0300010b0300010c0300010d0300010a040001;
0x10b0400010c0400010d0400010a0500010b0500010c0500010d0500010a060001;
0x10b0600010c0600010d0600010a0700010b0700010c0700010d0700010a080001;
0x10b0800010c0800010d0800010a0900010b0900010c0900010d090001000a0001;
0x1010a0001020a0001030a0001040a0001050a0001060a0001070a0001080a0001;
0x1090a00010a0a00010b0a00010c0a00010d0a00010e0a00010f0a0001100a0001;
0x1110a0001120a0001130a0001140a0001150a0001160a0001170a0001000b0001;
0x1010b0001020b0001030b0001040b0001050b0001060b0001070b0001080b0001;
0x1090b00010a0b00010b0b00010c0b00010d0b00010e0b00010f0b0001100b0001;
0x1110b0001120b0001130b0001140b0001150b0001160b0001170b0001000c0001;
0x1010c0001020c0001030c0001040c0001050c0001060c0001070c0001080c0001;
0x1090c00010a0c00010b0c00010c0c00010d0c00010e0c00010f0c0001100c0001;
0x1110c0001120c0001130c0001140c0001150c0001160c0001170c0001000d0001;
0x1010d0001020d0001030d0001040d0001050d0001060d0001070d0001080d0001;
0x1090d00010a0d00010b0d00010c0d00010d0d00010e0d00010f0d0001100d0001;
0x1110d0001120d0001130d0001140d0001150d0001160d0001170d00010a0e0001;
0x10b0e00010c0e00010d0e00010a0f00010b0f00010c0f00010d0f00010a100001;
0x10b1000010c1000010d1000010a1100010b1100010c1100010d1100010a120001;
0x10b1200010c1200010d1200010a1300010b1300010c1300010d1300010a140001;
0x10b1400010c1400010d1400010a1500010b1500010c1500010d1500010a160001;
0x10b1600010c1600010d1600010a1700010b1700010c1700010d17000109000101;
0x10e000101090101010e010101090201010e020101090301010e03010109040101;
0x10e040101090501010e050101090601010e060101090701010e07010109080101;
0x10e08010100090101010901010209010103090101040901010509010106090101;
0x10709010108090101090901010e0901010f090101100901011109010112090101;
0x11309010114090101150901011609010117090101000e0101010e0101020e0101;
0x1030e0101040e0101050e0101060e0101070e0101080e0101090e01010e0e0101;
0x10f0e0101100e0101110e0101120e0101130e0101140e0101150e0101160e0101;
0x1170e0101090f01010e0f0101091001010e100101091101010e11010109120101;
0x10e120101091301010e130101091401010e140101091501010e15010109160101;
0x10e160101091701010e170101080002010f000201080102010f01020108020201;
0x10f020201080302010f030201080402010f040201080502010f05020108060201;
0x10f060201080702010f0702010008020101080201020802010308020104080201;
0x1050802010608020107080201080802010f080201100802011108020112080201;
0x11308020114080201150802011608020117080201000f0201010f0201020f0201;
0x1030f0201040f0201050f0201060f0201070f0201080f02010f0f0201100f0201;
0x1110f0201120f0201130f0201140f0201150f0201160f0201170f020108100201;
0x10f100201081102010f110201081202010f120201081302010f13020108140201;
0x10f140201081502010f150201081602010f160201081702010f17020108000301;
0x10f000301080103010f010301080203010f020301080303010f03030108040301;
0x10f040301080503010f050301080603010f060301080703010f07030100080301;
0x10108030102080301030803010408030105080301060803010708030108080301;
0x10f08030110080301110803011208030113080301140803011508030116080301;
0x117080301000f0301010f0301020f0301030f0301040f0301050f0301060f0301;
0x1070f0301080f03010f0f0301100f0301110f0301120f0301130f0301140f0301;
0x1150f0301160f0301170f0301081003010f100301081103010f11030108120301;
0x10f120301081303010f130301081403010f140301081503010f15030108160301;
0x10f160301081703010f170301080004010f000401080104010f01040108020401;
0x10f020401080304010f030401080404010f040401080504010f05040108060401;
0x10f060401080704010f0704010008040101080401020804010308040104080401;
0x1050804010608040107080401080804010f080401100804011108040112080401;
0x11308040114080401150804011608040117080401000f0401010f0401020f0401;
0x1030f0401040f0401050f0401060f0401070f0401080f04010f0f0401100f0401;
0x1110f0401120f0401130f0401140f0401150f0401160f0401170f040108100401;
0x10f100401081104010f110401081204010f120401081304010f13040108140401;
0x10f140401081504010f150401081604010f160401081704010f17040108000501;
0x10f000501080105010f010501080205010f020501080305010f03050108040501;
0x10f040501080505010f050501080605010f060501080705010f07050100080501;
0x10108050102080501030805010408050105080501060805010708050108080501;
0x10f08050110080501110805011208050113080501140805011508050116080501;
0x117080501000f0501010f0501020f0501030f0501040f0501050f0501060f0501;
0x1070f0501080f05010f0f0501100f0501110f0501120f0501130f0501140f0501;
0x1150f0501160f0501170f0501081005010f100501081105010f11050108120501;
0x10f120501081305010f130501081405010f140501081505010f15050108160501;
0x10f160501081705010f170501090006010e000601090106010e01060109020601;
0x10e020601090306010e030601090406010e040601090506010e05060109060601;
0x10e060601090706010e070601090806010e080601000906010109060102090601;
0x1030906010409060105090601060906010709060108090601090906010e090601;
0x10f09060110090601110906011209060113090601140906011509060116090601;
0x117090601000e0601010e0601020e0601030e0601040e0601050e0601060e0601;
0x1070e0601080e0601090e06010e0e06010f0e0601100e0601110e0601120e0601;
0x1130e0601140e0601150e0601160e0601170e0601090f06010e0f060109100601;
0x10e100601091106010e110601091206010e120601091306010e13060109140601;
0x10e140601091506010e150601091606010e160601091706010e1706010a000701;
0x10b0007010c0007010d0007010a0107010b0107010c0107010d0107010a020701;
0x10b0207010c0207010d0207010a0307010b0307010c0307010d0307010a040701;
0x10b0407010c0407010d0407010a0507010b0507010c0507010d0507010a060701;
0x10b0607010c0607010d0607010a0707010b0707010c0707010d0707010a080701;
0x10b0807010c0807010d0807010a0907010b0907010c0907010d090701000a0701;
0x1010a0701020a0701030a0701040a0701050a0701060a0701070a0701080a0701;
0x1090a07010a0a07010b0a07010c0a07010d0a07010e0a07010f0a0701100a0701;
0x1110a0701120a0701130a0701140a0701150a0701160a0701170a0701000b0701;
0x1010b0701020b0701030b0701040b0701050b0701060b0701070b0701080b0701;
0x1090b07010a0b07010b0b07010c0b07010d0b07010e0b07010f0b0701100b0701;
0x1110b0701120b0701130b0701140b0701150b0701160b0701170b0701000c0701;
0x1010c0701020c0701030c0701040c0701050c0701060c0701070c0701080c0701;
0x1090c07010a0c07010b0c07010c0c07010d0c07010e0c07010f0c0701100c0701;
0x1110c0701120c0701130c0701140c0701150c0701160c0701170c0701000d0701;
0x1010d0701020d0701030d0701040d0701050d0701060d0701070d0701080d0701;
0x1090d07010a0d07010b0d07010c0d07010d0d07010e0d07010f0d0701100d0701;
0x1110d0701120d0701130d0701140d0701150d0701160d0701170d07010a0e0701;
0x10b0e07010c0e07010d0e07010a0f07010b0f07010c0f07010d0f07010a100701;
0x10b1007010c1007010d1007010a1107010b1107010c1107010d1107010a120701;
0x10b1207010c1207010d1207010a1307010b1307010c1307010d1307010a140701;
0x10b1407010c1407010d1407010a1507010b1507010c1507010d1507010a160701;
0x10b1607010c1607010d1607010a1707010b1707010c1707010d17070152474241;
0x1000400000000000000000000f0f0f0fff0f0f0fff0f0f0fff0f0f0fff0f0f0ff;
0x1f0f0f0fff0f0f0fff0f0f0fff0f0f0fff0f0f0fff0f0f0fff0f0f0fff0f0f0ff;
0x1f0f0f0fff0f0f0fff0f0f0fff0f0f0fff0f0f0fff0f0f0fff0f0f0fff0f0f0ff;
0x1f0f0f0fff0f0f0fff0f0f0fff0f0f0fff0f0f0fff0f0f0fff0f0f0fff0f0f0ff;
0x1f0f0f0fff0f0f0fff0f0f0fff0f0f0fff0f0f0fff0f0f0fff0f0f0fff0f0f0ff;
0x1f0f0f0fff0f0f0fff0f0f0fff0f0f0fff0f0f0fff0f0f0fff0f0f0fff0f0f0ff;
0x1f0f0f0fff0f0f0fff0f0f0fff0f0f0fff0f0f0fff0f0f0fff0f0f0fff0f0f0ff;
0x1f0f0f0fff0f0f0fff0f0f0fff0f0f0fff0f0f0fff0f0f0fff0f0f0fff0f0f0ff;
0x1f0f0f0fff0f0f0fff0f0f0fff0f0f0fff0f0f0fff0f0f0fff0f0f0fff0f0f0ff;
0x1f0f0f0fff0f0f0fff0f0f0fff0f0f0fff0f0f0fff0f0f0fff0f0f0fff0f0f0ff;
0x1f0f0f0fff0f0f0fff0f0f0fff0f0f0fff0f0f0fff0f0f0fff0f0f0fff0f0f0ff;
0x1f0f0f0fff0f0f0fff0f0f0fff0f0f0fff0f0f0fff0f0f0fff0f0f0fff0f0f0ff;
0x1f0f0f0fff0f0f0fff0f0f0fff0f0f0fff0f0f0fff0f0f0fff0f0f0fff0f0f0ff;
0x1f0f0f0fff0f0f0fff0f0f0fff0f0f0fff0f0f0fff0f0f0fff0f0f0fff0f0f0ff;
0x1f0f0f0fff0f0f0fff0f0f0fff0f0f0fff0f0f0fff0f0f0fff0f0f0fff0f0f0ff;
0x1f0f0f0fff0f0f0fff0f0f0fff0f0f0fff0f0f0fff0f0f0fff0f0f0fff0f0f0ff;
0x1f0f0f0fff0f0f0fff0f0f0fff0f0f0fff0f0f0fff0f0f0fff0f0f0fff0f0f0ff;
0x1f0f0f0fff0f0f0fff0f0f0fff0f0f0fff0f0f0fff0f0f0fff0f0f0fff0f0f0ff;
0x1f0f0f0fff0f0f0fff0f0f0fff0f0f0fff0f0f0fff0f0f0fff0f0f0fff0f0f0ff;
0x1f0f0f0fff0f0f0fff0f0f0fff0f0f0fff0f0f0fff0f0f0fff0f0f0fff0f0f0ff;
0x1f0f0f0fff0f0f0fff0f0f0fff0f0f0fff0f0f0fff0f0f0fff0f0f0fff0f0f0ff;
0x1f0f0f0fff0f0f0fff0f0f0fff0f0f0fff0f0f0fff0f0f0fff0f0f0fff0f0f0ff;
0x1f0f0f0fff0f0f0fff0f0f0fff0f0f0fff0f0f0fff0f0f0fff0f0f0fff0f0f0ff;
0x10000000000000000000000000000000000000000000000000000000000000000;
0x10000000000000000000000000000000000000000000000000000000000000000;
0x10000000000000000000000000000000000000000000000000000000000000000;
0x10000000000000000000000000000000000000000000000000000000000000000;
0x10000000000000000000000000000000000000000000000000000000000000000;
0x10000000000000000000000000000000000000000000000000000000000000000;
0x10000000000000000000000000000000000000000000000000000000000000000;
0x10000000000000000000000000000000000000000000000000000000000000000;
0x10000000000000000000000000000000000000000000000000000000000000000;
0x10000000000000000].
(** redeclipse/prefabs/spacestation/station_tubeX_variant.vox (4936 bytes) *)
Definition vox_spacestation_station_tubeX_variant : list Z := [
0x1564f5820960000004d41494e000000003413000053495a450c00000000000000;
0x118000000180000000800000058595a49040f000000000000c00300000a000001;
0x10b0000010c0000010d0000010a0100010b0100010c0100010d0100010a020001;
0x10b0200010c0200010d0200010a0300010b0300010c0300010d03000107040001;
0x108040001090400010a0400010b0400010c0400010d0400010e0400010f040001;
0x1100400010705000108050001090500010a0500010b0500010c0500010d050001;
0x10e0500010f050001100500010706000108060001090600010a0600010b060001;
0x10c0600010d0600010e0600010f06000110060001040700010507000106070001;
0x10707000108070001090700010a0700010b0700010c0700010d0700010e070001;
0x10f07000110070001110700011207000113070001040800010508000106080001;
0x10708000108080001090800010a0800010b0800010c0800010d0800010e080001;
0x10f08000110080001110800011208000113080001040900010509000106090001;
0x10709000108090001090900010a0900010b0900010c0900010d0900010e090001;
0x10f09000110090001110900011209000113090001000a0001010a0001020a0001;
0x1030a0001040a0001050a0001060a0001070a0001080a0001090a00010a0a0001;
0x10b0a00010c0a00010d0a00010e0a00010f0a0001100a0001110a0001120a0001;
0x1130a0001140a0001150a0001160a0001170a0001000b0001010b0001020b0001;
0x1030b0001040b0001050b0001060b0001070b0001080b0001090b00010a0b0001;
0x10b0b00010c0b00010d0b00010e0b00010f0b0001100b0001110b0001120b0001;
0x1130b0001140b0001150b0001160b0001170b0001000c0001010c0001020c0001;
0x1030c0001040c0001050c0001060c0001070c0001080c0001090c00010a0c0001;
0x10b0c00010c0c00010d0c00010e0c00010f0c0001100c0001110c0001120c0001;
0x1130c0001140c0001150c0001160c0001170c0001000d0001010d0001020d0001;
0x1030d0001040d0001050d0001060d0001070d0001080d0001090d00010a0d0001;
0x10b0d00010c0d00010d0d00010e0d00010f0d0001100d0001110d0001120d0001;
0x1130d0001140d0001150d0001160d0001170d0001040e0001050e0001060e0001;
0x1070e0001080e0001090e00010a0e00010b0e00010c0e00010d0e00010e0e0001;
0x10f0e0001100e0001110e0001120e0001130e0001040f0001050f0001060f0001;
0x1070f0001080f0001090f00010a0f00010b0f00010c0f00010d0f00010e0f0001;
0x10f0f0001100f0001110f0001120f0001130f0001041000010510000106100001;
0x10710000108100001091000010a1000010b1000010c1000010d1000010e100001;
0x10f10000110100001111000011210000113100001071100010811000109110001;
0x10a1100010b1100010c1100010d1100010e1100010f1100011011000107120001;
0x108120001091200010a1200010b1200010c1200010d1200010e1200010f120001;
0x1101200010713000108130001091300010a1300010b1300010c1300010d130001;
0x10e1300010f130001101300010a1400010b1400010c1400010d1400010a150001;
0x10b1500010c1500010d1500010a1600010b1600010c1600010d1600010a170001;
0x10b1700010c1700010d170001090001010e000101090101010e01010109020101;
0x10e020101060301010703010108030101090301010e0301010f03010110030101;
0x11103010106040101110401010605010111050101030601010406010105060101;
0x10606010111060101120601011306010114060101030701011407010103080101;
0x11408010100090101010901010209010103090101140901011509010116090101;
0x117090101000e0101010e0101020e0101030e0101140e0101150e0101160e0101;
0x1170e0101030f0101140f01010310010114100101031101010411010105110101;
0x10611010111110101121101011311010114110101061201011112010106130101;
0x111130101061401010714010108140101091401010e1401010f14010110140101;
0x111140101091501010e150101091601010e160101091701010e17010108000201;
0x10f000201080102010f0102010602020107020201080202010f02020110020201;
0x11102020105030201120302010504020112040201030502010405020105050201;
0x11205020113050201140502010206020115060201020702011507020100080201;
0x10108020102080201150802011608020117080201000f0201010f0201020f0201;
0x1150f0201160f0201170f02010210020115100201021102011511020103120201;
0x10412020105120201121202011312020114120201051302011213020105140201;
0x1121402010615020107150201081502010f150201101502011115020108160201;
0x10f160201081702010f170201080003010f000301080103010f01030106020301;
0x107020301080203010f0203011002030111020301050303011203030105040301;
0x11204030103050301040503010505030112050301130503011405030102060301;
0x11506030102070301150703010008030101080301020803011508030116080301;
0x117080301000f0301010f0301020f0301150f0301160f0301170f030102100301;
0x11510030102110301151103010312030104120301051203011212030113120301;
0x11412030105130301121303010514030112140301061503010715030108150301;
0x10f1503011015030111150301081603010f160301081703010f17030108000401;
0x10f000401080104010f0104010602040107020401080204010f02040110020401;
0x11102040105030401120304010504040112040401030504010405040105050401;
0x11205040113050401140504010206040115060401020704011507040100080401;
0x10108040102080401150804011608040117080401000f0401010f0401020f0401;
0x1150f0401160f0401170f04010210040115100401021104011511040103120401;
0x10412040105120401121204011312040114120401051304011213040105140401;
0x1121404010615040107150401081504010f150401101504011115040108160401;
0x10f160401081704010f170401080005010f000501080105010f01050106020501;
0x107020501080205010f0205011002050111020501050305011203050105040501;
0x11204050103050501040505010505050112050501130505011405050102060501;
0x11506050102070501150705010008050101080501020805011508050116080501;
0x117080501000f0501010f0501020f0501150f0501160f0501170f050102100501;
0x11510050102110501151105010312050104120501051205011212050113120501;
0x11412050105130501121305010514050112140501061505010715050108150501;
0x10f1505011015050111150501081605010f160501081705010f17050109000601;
0x10e000601090106010e010601090206010e020601060306010703060108030601;
0x1090306010e0306010f0306011003060111030601060406011104060106050601;
0x11105060103060601040606010506060106060601110606011206060113060601;
0x11406060103070601140706010308060114080601000906010109060102090601;
0x10309060114090601150906011609060117090601000e0601010e0601020e0601;
0x1030e0601140e0601150e0601160e0601170e0601030f0601140f060103100601;
0x11410060103110601041106010511060106110601111106011211060113110601;
0x11411060106120601111206010613060111130601061406010714060108140601;
0x1091406010e1406010f1406011014060111140601091506010e15060109160601;
0x10e160601091706010e1706010a0007010b0007010c0007010d0007010a010701;
0x10b0107010c0107010d0107010a0207010b0207010c0207010d0207010a030701;
0x10b0307010c0307010d0307010704070108040701090407010a0407010b040701;
0x10c0407010d0407010e0407010f04070110040701070507010805070109050701;
0x10a0507010b0507010c0507010d0507010e0507010f0507011005070107060701;
0x108060701090607010a0607010b0607010c0607010d0607010e0607010f060701;
0x1100607010407070105070701060707010707070108070701090707010a070701;
0x10b0707010c0707010d0707010e0707010f070701100707011107070112070701;
0x1130707010408070105080701060807010708070108080701090807010a080701;
0x10b0807010c0807010d0807010e0807010f080701100807011108070112080701;
0x1130807010409070105090701060907010709070108090701090907010a090701;
0x10b0907010c0907010d0907010e0907010f090701100907011109070112090701;
0x113090701000a0701010a0701020a0701030a0701040a0701050a0701060a0701;
0x1070a0701080a0701090a07010a0a07010b0a07010c0a07010d0a07010e0a0701;
0x10f0a0701100a0701110a0701120a0701130a0701140a0701150a0701160a0701;
0x1170a0701000b0701010b0701020b0701030b0701040b0701050b0701060b0701;
0x1070b0701080b0701090b07010a0b07010b0b07010c0b07010d0b07010e0b0701;
0x10f0b0701100b0701110b0701120b0701130b0701140b0701150b0701160b0701;
0x1170b0701000c0701010c0701020c0701030c0701040c0701050c0701060c0701;
0x1070c0701080c0701090c07010a0c07010b0c07010c0c07010d0c07010e0c0701;
0x10f0c0701100c0701110c0701120c0701130c0701140c0701150c0701160c0701;
0x1170c0701000d0701010d0701020d0701030d0701040d0701050d0701060d0701;
0x1070d0701080d0701090d07010a0d07010b0d07010c0d07010d0d07010e0d0701;
0x10f0d0701100d0701110d0701120d0701130d0701140d0701150d0701160d0701;
0x1170d0701040e0701050e0701060e0701070e0701080e0701090e07010a0e0701;
0x10b0e07010c0e07010d0e07010e0e07010f0e0701100e0701110e0701120e0701;
0x1130e0701040f0701050f0701060f0701070f0701080f0701090f07010a0f0701;
0x10b0f07010c0f07010d0f07010e0f07010f0f0701100f0701110f0701120f0701;
0x1130f07010410070105100701061007010710070108100701091007010a100701;
0x10b1007010c1007010d1007010e1007010f100701101007011110070112100701;
0x1131007010711070108110701091107010a1107010b1107010c1107010d110701;
0x10e1107010f110701101107010712070108120701091207010a1207010b120701;
0x10c1207010d1207010e1207010f12070110120701071307010813070109130701;
0x10a1307010b1307010c1307010d1307010e1307010f130701101307010a140701;
0x10b1407010c1407010d1407010a1507010b1507010c1507010d1507010a160701;
0x10b1607010c1607010d1607010a1707010b1707010c1707010d17070152474241;
0x1000400000000000000000000f0f0f0fff0f0f0fff0f0f0fff0f0f0fff0f0f0ff;
0x1f0f0f0fff0f0f0fff0f0f0fff0f0f0fff0f0f0fff0f0f0fff0f0f0fff0f0f0ff;
0x1f0f0f0fff0f0f0fff0f0f0fff0f0f0fff0f0f0fff0f0f0fff0f0f0fff0f0f0ff;
0x1f0f0f0fff0f0f0fff0f0f0fff0f0f0fff0f0f0fff0f0f0fff0f0f0fff0f0f0ff;
0x1f0f0f0fff0f0f0fff0f0f0fff0f0f0fff0f0f0fff0f0f0fff0f0f0fff0f0f0ff;
0x1f0f0f0fff0f0f0fff0f0f0fff0f0f0fff0f0f0fff0f0f0fff0f0f0fff0f0f0ff;
0x1f0f0f0fff0f0f0fff0f0f0fff0f0f0fff0f0f0fff0f0f0fff0f0f0fff0f0f0ff;
0x1f0f0f0fff0f0f0fff0f0f0fff0f0f0fff0f0f0fff0f0f0fff0f0f0fff0f0f0ff;
0x1f0f0f0fff0f0f0fff0f0f0fff0f0f0fff0f0f0fff0f0f0fff0f0f0fff0f0f0ff;
0x1f0f0f0fff0f0f0fff0f0f0fff0f0f0fff0f0f0fff0f0f0fff0f0f0fff0f0f0ff;
0x1f0f0f0fff0f0f0fff0f0f0fff0f0f0fff0f0f0fff0f0f0fff0f0f0fff0f0f0ff;
0x1f0f0f0fff0f0f0fff0f0f0fff0f0f0fff0f0f0fff0f0f0fff0f0f0fff0f0f0ff;
0x1f0f0f0fff0f0f0fff0f0f0fff0f0f0fff0f0f0fff0f0f0fff0f0f0fff0f0f0ff;
0x1f0f0f0fff0f0f0fff0f0f0fff0f0f0fff0f0f0fff0f0f0fff0f0f0fff0f0f0ff;
0x1f0f0f0fff0f0f0fff0f0f0fff0f0f0fff0f0f0fff0f0f0fff0f0f0fff0f0f0ff;
0x1f0f0f0fff0f0f0fff0f0f0fff0f0f0fff0f0f0fff0f0f0fff0f0f0fff0f0f0ff;
0x1f0f0f0fff0f0f0fff0f0f0fff0f0f0fff0f0f0fff0f0f0fff0f0f0fff0f0f0ff;
0x1f0f0f0fff0f0f0fff0f0f0fff0f0f0fff0f0f0fff0f0f0fff0f0f0fff0f0f0ff;
0x1f0f0f0fff0f0f0fff0f0f0fff0f0f0fff0f0f0fff0f0f0fff0f0f0fff0f0f0ff;
0x1f0f0f0fff0f0f0fff0f0f0fff0f0f0fff0f0f0fff0f0f0fff0f0f0fff0f0f0ff;
0x1f0f0f0fff0f0f0fff0f0f0fff0f0f0fff0f0f0fff0f0f0fff0f0f0fff0f0f0ff;
0x1f0f0f0fff0f0f0fff0f0f0fff0f0f0fff0f0f0fff0f0f0fff0f0f0fff0f0f0ff;
0x1f0f0f0fff0f0f0fff0f0f0fff0f0f0fff0f0f0fff0f0f0fff0f0f0fff0f0f0ff;
0x1f0f0f0fff0f0f0fff0f0f0fff0f0f0fff0f0f0ff000000000000000000000000;
0x10000000000000000000000000000000000000000000000000000000000000000;
0x10000000000000000000000000000000000000000000000000000000000000000;
0x10000000000000000000000000000000000000000000000000000000000000000;
0x10000000000000000000000000000000000000000000000000000000000000000;
0x10000000000000000000000000000000000000000000000000000000000000000;
0x10000000000000000000000000000000000000000000000000000000000000000;
0x10000000000000000000000000000000000000000000000000000000000000000;
0x10000000000000000000000000000000000000000000000000000000000000000;
0x10000000000000000].
(** redeclipse/prefabs/spacestation/station_tube_jumpx.vox (8184 bytes) *)
Definition vox_spacestation_station_tube_jumpx : list Z := [
0x1564f5820960000004d41494e00000000e41f000053495a450c00000000000000;
0x118000000180000001800000058595a49b41b000000000000ec0600000a000001;
0x10b0000010c0000010d0000010a0100010b0100010c0100010d0100010a020001;
0x10b0200010c0200010d0200010a0300010b0300010c0300010d0300010a040001;
0x10b0400010c0400010d0400010a0500010b0500010c0500010d0500010a060001;
0x10b0600010c0600010d0600010a0700010b0700010c0700010d0700010a080001;
0x10b0800010c0800010d0800010a0900010b0900010c0900010d090001000a0001;
0x1010a0001020a0001030a0001040a0001050a0001060a0001070a0001080a0001;
0x1090a00010a0a00010b0a00010c0a00010d0a00010e0a00010f0a0001100a0001;
0x1110a0001120a0001130a0001140a0001150a0001160a0001170a0001000b0001;
0x1010b0001020b0001030b0001040b0001050b0001060b0001070b0001080b0001;
0x1090b00010a0b00010b0b00010c0b00010d0b00010e0b00010f0b0001100b0001;
0x1110b0001120b0001130b0001140b0001150b0001160b0001170b0001000c0001;
0x1010c0001020c0001030c0001040c0001050c0001060c0001070c0001080c0001;
0x1090c00010a0c00010b0c00010c0c00010d0c00010e0c00010f0c0001100c0001;
0x1110c0001120c0001130c0001140c0001150c0001160c0001170c0001000d0001;
0x1010d0001020d0001030d0001040d0001050d0001060d0001070d0001080d0001;
0x1090d00010a0d00010b0d00010c0d00010d0d00010e0d00010f0d0001100d0001;
0x1110d0001120d0001130d0001140d0001150d0001160d0001170d00010a0e0001;
0x10b0e00010c0e00010d0e00010a0f00010b0f00010c0f00010d0f00010a100001;
0x10b1000010c1000010d1000010a1100010b1100010c1100010d1100010a120001;
0x10b1200010c1200010d1200010a1300010b1300010c1300010d1300010a140001;
0x10b1400010c1400010d1400010a1500010b1500010c1500010d1500010a160001;
0x10b1600010c1600010d1600010a1700010b1700010c1700010d17000109000101;
0x10e000101090101010e010101090201010e020101090301010e03010109040101;
0x10e040101090501010e050101090601010e060101090701010e07010109080101;
0x10e08010100090101010901010209010103090101040901010509010106090101;
0x10709010108090101090901010e0901010f090101100901011109010112090101;
0x11309010114090101150901011609010117090101000e0101010e0101020e0101;
0x1030e0101040e0101050e0101060e0101070e0101080e0101090e01010e0e0101;
0x10f0e0101100e0101110e0101120e0101130e0101140e0101150e0101160e0101;
0x1170e0101090f01010e0f0101091001010e100101091101010e11010109120101;
0x10e120101091301010e130101091401010e140101091501010e15010109160101;
0x10e160101091701010e170101080002010f000201080102010f01020108020201;
0x10f020201080302010f030201080402010f040201080502010f05020108060201;
0x10f060201080702010f0702010008020101080201020802010308020104080201;
0x1050802010608020107080201080802010f080201100802011108020112080201;
0x11308020114080201150802011608020117080201000f0201010f0201020f0201;
0x1030f0201040f0201050f0201060f0201070f0201080f02010f0f0201100f0201;
0x1110f0201120f0201130f0201140f0201150f0201160f0201170f020108100201;
0x10f100201081102010f110201081202010f120201081302010f13020108140201;
0x10f140201081502010f150201081602010f160201081702010f17020108000301;
0x10f000301080103010f010301080203010f020301080303010f03030108040301;
0x10f040301080503010f050301080603010f060301080703010f07030100080301;
0x10108030102080301030803010408030105080301060803010708030108080301;
0x10f08030110080301110803011208030113080301140803011508030116080301;
0x117080301000f0301010f0301020f0301030f0301040f0301050f0301060f0301;
0x1070f0301080f03010f0f0301100f0301110f0301120f0301130f0301140f0301;
0x1150f0301160f0301170f0301081003010f100301081103010f11030108120301;
0x10f120301081303010f130301081403010f140301081503010f15030108160301;
0x10f160301081703010f170301080004010f000401080104010f01040108020401;
0x10f020401080304010f030401080404010f040401080504010f05040108060401;
0x10f060401080704010f0704010008040101080401020804010308040104080401;
0x1050804010608040107080401080804010f080401100804011108040112080401;
0x11308040114080401150804011608040117080401000f0401010f0401020f0401;
0x1030f0401040f0401050f0401060f0401070f0401080f04010f0f0401100f0401;
0x1110f0401120f0401130f0401140f0401150f0401160f0401170f040108100401;
0x10f100401081104010f110401081204010f120401081304010f13040108140401;
0x10f140401081504010f150401081604010f160401081704010f17040108000501;
0x10f000501080105010f010501080205010f020501080305010f03050108040501;
0x10f040501080505010f050501080605010f060501080705010f07050100080501;
0x10108050102080501030805010408050105080501060805010708050108080501;
0x10f08050110080501110805011208050113080501140805011508050116080501;
0x117080501000f0501010f0501020f0501030f0501040f0501050f0501060f0501;
0x1070f0501080f05010f0f0501100f0501110f0501120f0501130f0501140f0501;
0x1150f0501160f0501170f0501081005010f100501081105010f11050108120501;
0x10f120501081305010f130501081405010f140501081505010f15050108160501;
0x10f160501081705010f170501090006010e000601090106010e01060109020601;
0x10e020601090306010e030601090406010e040601090506010e05060109060601;
0x10e060601090706010e070601090806010e080601000906010109060102090601;
0x10309060104090601050906010609060107090601080906010f09060110090601;
0x111090601120906011309060114090601150906011609060117090601000e0601;
0x1010e0601020e0601030e0601040e0601050e0601060e0601070e0601080e0601;
0x10f0e0601100e0601110e0601120e0601130e0601140e0601150e0601160e0601;
0x1170e0601090f06010e0f0601091006010e100601091106010e11060109120601;
0x10e120601091306010e130601091406010e140601091506010e15060109160601;
0x10e160601091706010e1706010a0007010b0007010c0007010d0007010a010701;
0x10b0107010c0107010d0107010a0207010b0207010c0207010d0207010a030701;
0x10b0307010c0307010d0307010a0407010b0407010c0407010d0407010a050701;
0x10b0507010c0507010d0507010a0607010b0607010c0607010d0607010a070701;
0x10b0707010c0707010d0707010a0807010b0807010c0807010d08070109090701;
0x10a0907010b0907010c0907010d0907010e090701000a0701010a0701020a0701;
0x1030a0701040a0701050a0701060a0701070a0701080a07010f0a0701100a0701;
0x1110a0701120a0701130a0701140a0701150a0701160a0701170a0701000b0701;
0x1010b0701020b0701030b0701040b0701050b0701060b0701070b0701080b0701;
0x10f0b0701100b0701110b0701120b0701130b0701140b0701150b0701160b0701;
0x1170b0701000c0701010c0701020c0701030c0701040c0701050c0701060c0701;
0x1070c0701080c07010f0c0701100c0701110c0701120c0701130c0701140c0701;
0x1150c0701160c0701170c0701000d0701010d0701020d0701030d0701040d0701;
0x1050d0701060d0701070d0701080d07010f0d0701100d0701110d0701120d0701;
0x1130d0701140d0701150d0701160d0701170d0701090e07010e0e07010a0f0701;
0x10b0f07010c0f07010d0f07010a1007010b1007010c1007010d1007010a110701;
0x10b1107010c1107010d1107010a1207010b1207010c1207010d1207010a130701;
0x10b1307010c1307010d1307010a1407010b1407010c1407010d1407010a150701;
0x10b1507010c1507010d1507010a1607010b1607010c1607010d1607010a170701;
0x10b1707010c1707010d1707010a0808010b0808010c0808010d08080109090801;
0x10a0908010b0908010c0908010d0908010e090801080a0801090a08010e0a0801;
0x10f0a0801080b0801090b08010e0b08010f0b0801080c0801090c08010e0c0801;
0x10f0c0801080d0801090d08010e0d08010f0d0801090e08010a0e08010b0e0801;
0x10c0e08010d0e08010e0e08010a0f08010b0f08010c0f08010d0f08010a080901;
0x10b0809010c0809010d080901090909010a0909010b0909010c0909010d090901;
0x10e090901080a0901090a09010e0a09010f0a0901080b0901090b09010e0b0901;
0x10f0b0901080c0901090c09010e0c09010f0c0901080d0901090d09010e0d0901;
0x10f0d0901090e09010a0e09010b0e09010c0e09010d0e09010e0e09010a0f0901;
0x10b0f09010c0f09010d0f09010a080a010b080a010c080a010d080a0109090a01;
0x10a090a010b090a010c090a010d090a010e090a01080a0a01090a0a010e0a0a01;
0x10f0a0a01080b0a01090b0a010e0b0a010f0b0a01080c0a01090c0a010e0c0a01;
0x10f0c0a01080d0a01090d0a010e0d0a010f0d0a01090e0a010a0e0a010b0e0a01;
0x10c0e0a010d0e0a010e0e0a010a0f0a010b0f0a010c0f0a010d0f0a010a080b01;
0x10b080b010c080b010d080b0109090b010a090b010b090b010c090b010d090b01;
0x10e090b01080a0b01090a0b010e0a0b010f0a0b01080b0b01090b0b010e0b0b01;
0x10f0b0b01080c0b01090c0b010e0c0b010f0c0b01080d0b01090d0b010e0d0b01;
0x10f0d0b01090e0b010a0e0b010b0e0b010c0e0b010d0e0b010e0e0b010a0f0b01;
0x10b0f0b010c0f0b010d0f0b010a080c010b080c010c080c010d080c0109090c01;
0x10a090c010b090c010c090c010d090c010e090c01080a0c01090a0c010e0a0c01;
0x10f0a0c01080b0c01090b0c010e0b0c010f0b0c01080c0c01090c0c010e0c0c01;
0x10f0c0c01080d0c01090d0c010e0d0c010f0d0c01090e0c010e0e0c010a0f0c01;
0x10b0f0c010c0f0c010d0f0c010a080d010b080d010c080d010d080d0109090d01;
0x10a090d010b090d010c090d010d090d010e090d01080a0d01090a0d010e0a0d01;
0x10f0a0d01080b0d01090b0d010e0b0d010f0b0d01080c0d01090c0d010e0c0d01;
0x10f0c0d01080d0d01090d0d010e0d0d010f0d0d01090e0d010e0e0d010a0f0d01;
0x10b0f0d010c0f0d010d0f0d010a080e010b080e010c080e010d080e0109090e01;
0x10a090e010b090e010c090e010d090e010e090e01080a0e01090a0e010e0a0e01;
0x10f0a0e01080b0e01090b0e010e0b0e010f0b0e01080c0e01090c0e010e0c0e01;
0x10f0c0e01080d0e01090d0e010e0d0e010f0d0e01090e0e010e0e0e010a0f0e01;
0x10b0f0e010c0f0e010d0f0e010a080f010b080f010c080f010d080f0109090f01;
0x10a090f010b090f010c090f010d090f010e090f01080a0f01090a0f010e0a0f01;
0x10f0a0f01080b0f01090b0f010e0b0f010f0b0f01080c0f01090c0f010e0c0f01;
0x10f0c0f01080d0f01090d0f010e0d0f010f0d0f01090e0f010a0e0f010b0e0f01;
0x10c0e0f010d0e0f010e0e0f010a0f0f010b0f0f010c0f0f010d0f0f010a001001;
0x10b0010010c0010010d0010010a0110010b0110010c0110010d0110010a021001;
0x10b0210010c0210010d0210010a0310010b0310010c0310010d0310010a041001;
0x10b0410010c0410010d0410010a0510010b0510010c0510010d0510010a061001;
0x10b0610010c0610010d0610010a0710010b0710010c0710010d0710010a081001;
0x10b0810010c0810010d081001090910010e091001000a1001010a1001020a1001;
0x1030a1001040a1001050a1001060a1001070a1001080a10010f0a1001100a1001;
0x1110a1001120a1001130a1001140a1001150a1001160a1001170a1001000b1001;
0x1010b1001020b1001030b1001040b1001050b1001060b1001070b1001080b1001;
0x10f0b1001100b1001110b1001120b1001130b1001140b1001150b1001160b1001;
0x1170b1001000c1001010c1001020c1001030c1001040c1001050c1001060c1001;
0x1070c1001080c10010f0c1001100c1001110c1001120c1001130c1001140c1001;
0x1150c1001160c1001170c1001000d1001010d1001020d1001030d1001040d1001;
0x1050d1001060d1001070d1001080d10010f0d1001100d1001110d1001120d1001;
0x1130d1001140d1001150d1001160d1001170d1001090e10010e0e10010a0f1001;
0x10b0f10010c0f10010d0f10010a1010010b1010010c1010010d1010010a111001;
0x10b1110010c1110010d1110010a1210010b1210010c1210010d1210010a131001;
0x10b1310010c1310010d1310010a1410010b1410010c1410010d1410010a151001;
0x10b1510010c1510010d1510010a1610010b1610010c1610010d1610010a171001;
0x10b1710010c1710010d171001090011010e001101090111010e01110109021101;
0x10e021101090311010e031101090411010e041101090511010e05110109061101;
0x10e061101090711010e071101090811010e081101000911010109110102091101;
0x1030911010409110105091101060911010709110108091101090911010e091101;
0x10f09110110091101110911011209110113091101140911011509110116091101;
0x117091101000e1101010e1101020e1101030e1101040e1101050e1101060e1101;
0x1070e1101080e1101090e11010e0e11010f0e1101100e1101110e1101120e1101;
0x1130e1101140e1101150e1101160e1101170e1101090f11010e0f110109101101;
0x10e101101091111010e111101091211010e121101091311010e13110109141101;
0x10e141101091511010e151101091611010e161101091711010e17110108001201;
0x10f001201080112010f011201080212010f021201080312010f03120108041201;
0x10f041201080512010f051201080612010f061201080712010f07120100081201;
0x10108120102081201030812010408120105081201060812010708120108081201;
0x10f08120110081201110812011208120113081201140812011508120116081201;
0x117081201000f1201010f1201020f1201030f1201040f1201050f1201060f1201;
0x1070f1201080f12010f0f1201100f1201110f1201120f1201130f1201140f1201;
0x1150f1201160f1201170f1201081012010f101201081112010f11120108121201;
0x10f121201081312010f131201081412010f141201081512010f15120108161201;
0x10f161201081712010f171201080013010f001301080113010f01130108021301;
0x10f021301080313010f031301080413010f041301080513010f05130108061301;
0x10f061301080713010f0713010008130101081301020813010308130104081301;
0x1050813010608130107081301080813010f081301100813011108130112081301;
0x11308130114081301150813011608130117081301000f1301010f1301020f1301;
0x1030f1301040f1301050f1301060f1301070f1301080f13010f0f1301100f1301;
0x1110f1301120f1301130f1301140f1301150f1301160f1301170f130108101301;
0x10f101301081113010f111301081213010f121301081313010f13130108141301;
0x10f141301081513010f151301081613010f161301081713010f17130108001401;
0x10f001401080114010f011401080214010f021401080314010f03140108041401;
0x10f041401080514010f051401080614010f061401080714010f07140100081401;
0x10108140102081401030814010408140105081401060814010708140108081401;
0x10f08140110081401110814011208140113081401140814011508140116081401;
0x117081401000f1401010f1401020f1401030f1401040f1401050f1401060f1401;
0x1070f1401080f14010f0f1401100f1401110f1401120f1401130f1401140f1401;
0x1150f1401160f1401170f1401081014010f101401081114010f11140108121401;
0x10f121401081314010f131401081414010f141401081514010f15140108161401;
0x10f161401081714010f171401080015010f001501080115010f01150108021501;
0x10f021501080315010f031501080415010f041501080515010f05150108061501;
0x10f061501080715010f0715010008150101081501020815010308150104081501;
0x1050815010608150107081501080815010f081501100815011108150112081501;
0x11308150114081501150815011608150117081501000f1501010f1501020f1501;
0x1030f1501040f1501050f1501060f1501070f1501080f15010f0f1501100f1501;
0x1110f1501120f1501130f1501140f1501150f1501160f1501170f150108101501;
0x10f101501081115010f111501081215010f121501081315010f13150108141501;
0x10f141501081515010f151501081615010f161501081715010f17150109001601;
0x10e001601090116010e011601090216010e021601090316010e03160109041601;
0x10e041601090516010e051601090616010e061601090716010e07160109081601;
0x10e08160100091601010916010209160103091601040916010509160106091601;
0x10709160108091601090916010e0916010f091601100916011109160112091601;
0x11309160114091601150916011609160117091601000e1601010e1601020e1601;
0x1030e1601040e1601050e1601060e1601070e1601080e1601090e16010e0e1601;
0x10f0e1601100e1601110e1601120e1601130e1601140e1601150e1601160e1601;
0x1170e1601090f16010e0f1601091016010e101601091116010e11160109121601;
0x10e121601091316010e131601091416010e141601091516010e15160109161601;
0x10e161601091716010e1716010a0017010b0017010c0017010d0017010a011701;
0x10b0117010c0117010d0117010a0217010b0217010c0217010d0217010a031701;
0x10b0317010c0317010d0317010a0417010b0417010c0417010d0417010a051701;
0x10b0517010c0517010d0517010a0617010b0617010c0617010d0617010a071701;
0x10b0717010c0717010d0717010a0817010b0817010c0817010d0817010a091701;
0x10b0917010c0917010d091701000a1701010a1701020a1701030a1701040a1701;
0x1050a1701060a1701070a1701080a1701090a17010a0a17010b0a17010c0a1701;
0x10d0a17010e0a17010f0a1701100a1701110a1701120a1701130a1701140a1701;
0x1150a1701160a1701170a1701000b1701010b1701020b1701030b1701040b1701;
0x1050b1701060b1701070b1701080b1701090b17010a0b17010b0b17010c0b1701;
0x10d0b17010e0b17010f0b1701100b1701110b1701120b1701130b1701140b1701;
0x1150b1701160b1701170b1701000c1701010c1701020c1701030c1701040c1701;
0x1050c1701060c1701070c1701080c1701090c17010a0c17010b0c17010c0c1701;
0x10d0c17010e0c17010f0c1701100c1701110c1701120c1701130c1701140c1701;
0x1150c1701160c1701170c1701000d1701010d1701020d1701030d1701040d1701;
0x1050d1701060d1701070d1701080d1701090d17010a0d17010b0d17010c0d1701;
0x10d0d17010e0d17010f0d1701100d1701110d1701120d1701130d1701140d1701;
0x1150d1701160d1701170d17010a0e17010b0e17010c0e17010d0e17010a0f1701;
0x10b0f17010c0f17010d0f17010a1017010b1017010c1017010d1017010a111701;
0x10b1117010c1117010d1117010a1217010b1217010c1217010d1217010a131701;
0x10b1317010c1317010d1317010a1417010b1417010c1417010d1417010a151701;
0x10b1517010c1517010d1517010a1617010b1617010c1617010d1617010a171701;
0x10b1717010c1717010d17170152474241000400000000000000000000f0f0f0ff;
0x1f0f0f0fff0f0f0fff0f0f0fff0f0f0fff0f0f0fff0f0f0fff0f0f0fff0f0f0ff;
0x1f0f0f0fff0f0f0fff0f0f0fff0f0f0fff0f0f0fff0f0f0fff0f0f0fff0f0f0ff;
0x1f0f0f0fff0f0f0fff0f0f0fff0f0f0fff0f0f0fff0f0f0fff0f0f0fff0f0f0ff;
0x1f0f0f0fff0f0f0fff0f0f0fff0f0f0fff0f0f0fff0f0f0fff0f0f0fff0f0f0ff;
0x1f0f0f0fff0f0f0fff0f0f0fff0f0f0fff0f0f0fff0f0f0fff0f0f0fff0f0f0ff;
0x1f0f0f0fff0f0f0fff0f0f0fff0f0f0fff0f0f0fff0f0f0fff0f0f0fff0f0f0ff;
0x1f0f0f0fff0f0f0fff0f0f0fff0f0f0fff0f0f0fff0f0f0fff0f0f0fff0f0f0ff;
0x1f0f0f0fff0f0f0fff0f0f0fff0f0f0fff0f0f0fff0f0f0fff0f0f0fff0f0f0ff;
0x1f0f0f0fff0f0f0fff0f0f0fff0f0f0fff0f0f0fff0f0f0fff0f0f0fff0f0f0ff;
0x1f0f0f0fff0f0f0fff0f0f0fff0f0f0fff0f0f0fff0f0f0fff0f0f0fff0f0f0ff;
0x1f0f0f0fff0f0f0fff0f0f0fff0f0f0fff0f0f0fff0f0f0fff0f0f0fff0f0f0ff;
0x1f0f0f0fff0f0f0fff0f0f0fff0f0f0fff0f0f0fff0f0f0fff0f0f0fff0f0f0ff;
0x1f0f0f0fff0f0f0fff0f0f0fff0f0f0fff0f0f0fff0f0f0fff0f0f0fff0f0f0ff;
0x1f0f0f0fff0f0f0fff0f0f0fff0f0f0fff0f0f0fff0f0f0fff0f0f0fff0f0f0ff;
0x1f0f0f0fff0f0f0fff0f0f0fff0f0f0fff0f0f0fff0f0f0fff0f0f0fff0f0f0ff;
0x1f0f0f0fff0f0f0fff0f0f0fff0f0f0fff0f0f0fff0f0f0fff0f0f0fff0f0f0ff;
0x1f0f0f0fff0f0f0fff0f0f0fff0f0f0fff0f0f0fff0f0f0fff0f0f0fff0f0f0ff;
0x1f0f0f0fff0f0f0fff0f0f0fff0f0f0fff0f0f0fff0f0f0fff0f0f0fff0f0f0ff;
0x1f0f0f0fff0f0f0fff0f0f0fff0f0f0fff0f0f0fff0f0f0fff0f0f0fff0f0f0ff;
0x1f0f0f0fff0f0f0fff0f0f0fff0f0f0fff0f0f0fff0f0f0fff0f0f0fff0f0f0ff;
0x1f0f0f0fff0f0f0fff0f0f0fff0f0f0fff0f0f0fff0f0f0fff0f0f0fff0f0f0ff;
0x1f0f0f0fff0f0f0fff0f0f0fff0f0f0fff0f0f0fff0f0f0fff0f0f0fff0f0f0ff;
0x1f0f0f0fff0f0f0fff0f0f0fff0f0f0fff0f0f0fff0f0f0fff0f0f0fff0f0f0ff;
0x1f0f0f0fff0f0f0fff0f0f0fff0f0f0ff00000000000000000000000000000000;
0x10000000000000000000000000000000000000000000000000000000000000000;
0x10000000000000000000000000000000000000000000000000000000000000000;
0x10000000000000000000000000000000000000000000000000000000000000000;
0x10000000000000000000000000000000000000000000000000000000000000000;
0x10000000000000000000000000000000000000000000000000000000000000000;
0x10000000000000000000000000000000000000000000000000000000000000000;
0x10000000000000000000000000000000000000000000000000000000000000000;
0x1000000000000000000000000000000000000000000000000].
(** redeclipse/prefabs/spacestation/station_uturn.vox (2312 bytes) *)
Definition vox_spacestation_station_uturn : list Z := [
0x1564f5820960000004d41494e00000000f408000053495a450c00000000000000;
0x108000000100000000800000058595a49c4040000000000003001000000020001;
0x10102000102020001030200010402000105020001000300010103000102030001;
0x10303000104030001050300010004000101040001020400010304000104040001;
0x10504000100050001010500010205000103050001040500010505000102060001;
0x10306000104060001050600010207000103070001040700010507000102080001;
0x103080001040800010508000102090001030900010409000105090001000a0001;
0x1010a0001020a0001030a0001040a0001050a0001000b0001010b0001020b0001;
0x1030b0001040b0001050b0001000c0001010c0001020c0001030c0001040c0001;
0x1050c0001000d0001010d0001020d0001030d0001040d0001050d000100010101;
0x10101010102010101030101010401010105010101060101010602010106030101;
0x10604010106050101000601010106010106060101010701010607010101080101;
0x106080101000901010109010106090101060a0101060b0101060c0101060d0101;
0x1000e0101010e0101020e0101030e0101040e0101050e0101060e010100000201;
0x10100020102000201030002010400020105000201060102010702020107030201;
0x10704020107050201070602010007020107070201000802010708020107090201;
0x1070a0201070b0201070c0201070d0201060e0201000f0201010f0201020f0201;
0x1030f0201040f0201050f02010000030101000301020003010300030104000301;
0x10500030106010301070203010703030107040301070503010706030100070301;
0x107070301000803010708030107090301070a0301070b0301070c0301070d0301;
0x1060e0301000f0301010f0301020f0301030f0301040f0301050f030100000401;
0x10100040102000401030004010400040105000401060104010702040107030401;
0x10704040107050401070604010007040107070401000804010708040107090401;
0x1070a0401070b0401070c0401070d0401060e0401000f0401010f0401020f0401;
0x1030f0401040f0401050f04010000050101000501020005010300050104000501;
0x10500050106010501070205010703050107040501070505010706050100070501;
0x107070501000805010708050107090501070a0501070b0501070c0501070d0501;
0x1060e0501000f0501010f0501020f0501030f0501040f0501050f050100010601;
0x10101060102010601030106010401060105010601060106010602060106030601;
0x10604060106050601000606010106060106060601010706010607060101080601;
0x106080601000906010109060106090601060a0601060b0601060c0601060d0601;
0x1000e0601010e0601020e0601030e0601040e0601050e0601060e060100020701;
0x10102070102020701030207010402070105020701000307010103070102030701;
0x10303070104030701050307010004070101040701020407010304070104040701;
0x10504070100050701010507010205070103050701040507010505070102060701;
0x10306070104060701050607010207070103070701040707010507070102080701;
0x103080701040807010508070102090701030907010409070105090701000a0701;
0x1010a0701020a0701030a0701040a0701050a0701000b0701010b0701020b0701;
0x1030b0701040b0701050b0701000c0701010c0701020c0701030c0701040c0701;
0x1050c0701000d0701010d0701020d0701030d0701040d0701050d070152474241;
0x1000400000000000000000000f0f0f0fff0f0f0fff0f0f0fff0f0f0fff0f0f0ff;
0x1f0f0f0fff0f0f0fff0f0f0fff0f0f0fff0f0f0fff0f0f0fff0f0f0fff0f0f0ff;
0x1f0f0f0fff0f0f0fff0f0f0fff0f0f0fff0f0f0fff0f0f0fff0f0f0fff0f0f0ff;
0x1f0f0f0fff0f0f0fff0f0f0fff0f0f0fff0f0f0fff0f0f0fff0f0f0fff0f0f0ff;
0x1f0f0f0fff0f0f0fff0f0f0fff0f0f0fff0f0f0fff0f0f0fff0f0f0fff0f0f0ff;
0x1f0f0f0fff0f0f0fff0f0f0fff0f0f0fff0f0f0fff0f0f0fff0f0f0fff0f0f0ff;
0x1f0f0f0fff0f0f0fff0f0f0fff0f0f0fff0f0f0fff0f0f0fff0f0f0fff0f0f0ff;
0x1f0f0f0fff0f0f0fff0f0f0fff0f0f0fff0f0f0fff0f0f0fff0f0f0fff0f0f0ff;
0x1f0f0f0fff0f0f0fff0f0f0fff0f0f0fff0f0f0fff0f0f0fff0f0f0fff0f0f0ff;
0x1f0f0f0fff0f0f0fff0f0f0fff0f0f0fff0f0f0fff0f0f0fff0f0f0fff0f0f0ff;
0x1f0f0f0fff0f0f0fff0f0f0fff0f0f0fff0f0f0fff0f0f0fff0f0f0fff0f0f0ff;
0x1f0f0f0fff0f0f0fff0f0f0fff0f0f0fff0f0f0fff0f0f0fff0f0f0fff0f0f0ff;
0x1f0f0f0fff0f0f0fff0f0f0fff0f0f0fff0f0f0fff0f0f0fff0f0f0fff0f0f0ff;
0x1f0f0f0fff0f0f0fff0f0f0fff0f0f0fff0f0f0fff0f0f0fff0f0f0fff0f0f0ff;
0x1f0f0f0fff0f0f0fff0f0f0fff0f0f0fff0f0f0fff0f0f0fff0f0f0fff0f0f0ff;
0x1f0f0f0fff0f0f0fff0f0f0fff0f0f0fff0f0f0fff0f0f0fff0f0f0fff0f0f0ff;
0x1f0f0f0fff0f0f0fff0f0f0fff0f0f0fff0f0f0fff0f0f0fff0f0f0fff0f0f0ff;
0x1f0f0f0fff0f0f0fff0f0f0fff0f0f0fff0f0f0fff0f0f0fff0f0f0fff0f0f0ff;
0x1f0f0f0fff0f0f0fff0f0f0fff0f0f0fff0f0f0fff0f0f0fff0f0f0fff0f0f0ff;
0x1f0f0f0fff0f0f0fff0f0f0fff0f0f0fff0f0f0ff000000000000000000000000;
0x10000000000000000000000000000000000000000000000000000000000000000;
0x10000000000000000000000000000000000000000000000000000000000000000;
0x10000000000000000000000000000000000000000000000000000000000000000;
0x10000000000000000000000000000000000000000000000000000000000000000;
0x10000000000000000000000000000000000000000000000000000000000000000;
0x10000000000000000000000000000000000000000000000000000000000000000;
0x10000000000000000000000000000000000000000000000000000000000000000;
0x10000000000000000000000000000000000000000000000000000000000000000;
0x10000000000000000000000000000000000000000000000000000000000000000;
0x10000000000000000000000000000000000000000000000000000000000000000;
0x10000000000000000000000000000000000000000000000000000000000000000;
0x10000000000000000000000000000000000000000000000000000000000000000;
0x10000000000000000].
