(** The empty maps shipped with the program, maps/<name>.mpz, unzipped, byte for byte up to the
    end of the octree.  What follows there (81965 bytes in empty-day, 77870 in empty2, none in
    empty-night) the reader does not look at (redeclipse/__init__.py:550-649); the theorems
    allow any bytes there.  The numbers are read as in ShippedVox. *)
From Coq Require Import ZArith List.
Import ListNotations.
Local Open Scope Z_scope.

(** maps/empty-day.mpz (the first 3843 bytes) *)
Definition map_empty_day : list Z := [
0x14d41505a2b000000300000000004000000000000000000000000000001000000;
0x18d030000e600000004000000667073009b000000090000006f62697477617465;
0x172000200000000000000000a000000666f67646f6d656d696e00010000000000;
0x100000a0000006c696768746572726f7200000000000800000010000000736861;
0x1646f776d6170616d6269656e740000000000000000000b000000636c6f756468;
0x165696768740001000000cdcc4c3e09000000776174657233666f670000000000;
0x1960000000a0000006c617661636f6c6f757200000000000044ff000a00000066;
0x16f67646f6d656361700000000000010000000d0000006c69676874636f6d7072;
0x16573730000000000030000000d000000636175737469636d696c6c6973000000;
0x100004b00000009000000656e766865696768740001000000cdcc4c3e09000000;
0x1776174657234666f670000000000960000000a0000006f626974776174657232;
0x1000200000000000000000a0000006f6269747761746572330002000000000000;
0x100000a0000006f626974776174657234000200000000000000000e0000006c65;
0x1727073756264697673697a650000000000040000000a000000736c696465636f;
0x16173740001000000000020420d000000666f67646f6d65636f6c6f7572000000;
0x10000000000000a000000696c6c756d6c6576656c0001000000000000000b0000;
0x1006c61766133636f6c6f757200000000000044ff0008000000736b79626c656e;
0x16400010000000000803f0c00000068757274726573696475616c000000000000;
0x10000000a000000636c6f7564626c656e6400010000000000803f080000007761;
0x17465726c6f640000000000020000000a000000636c6f75646c61796572000200;
0x100000000000000040000006c6d61610000000000030000000900000076657274;
0x177617465720000000000010000000b000000736b796267636f6c6f7572000000;
0x1000000000000090000006875727464656c61790000000000e803000010000000;
0x177617465723466616c6c636f6c6f757200000000000000000010000000776174;
0x165723266616c6c636f6c6f75720000000000000000000c000000676c61737333;
0x1636f6c6f75720000000000c08020000a000000736b796267676c617265000000;
0x10000000000000c0000007370696e656e766c6179657200010000000000000013;
0x10000006c69676874707265636973696f6e717569636b00000000000008000010;
0x1000000636c6f75646c61796572636f6c6f75720000000000ffffff000c000000;
0x1636c6f75646f666673657479000100000000000000070000007370696e736b79;
0x10001000000000000000c000000636c6f75646f66667365747800010000000000;
0x1000009000000636c6f7564636c697000010000000000003f0c00000077617465;
0x17232636f6c6f757200000000006030100009000000636c6f7564666164650001;
0x1000000cdcc4c3e0e0000006c69717569647375626d6572676500010000000000;
0x1403f0a000000736b797465787475726500000000000100000007000000677261;
0x1766974790001000000000048420b000000677261737368656967687400000000;
0x1000400000009000000776174657232666f670000000000960000000a00000063;
0x16c6f75647363616c6500010000000000803f0900000073746570737065656400;
0x1010000000000803f0e000000656e766c61796572636f6c6f75720000000000ff;
0x1ffff000a000000656e766f6666736574790001000000000000000a000000656e;
0x1766f6666736574780001000000000000000b0000007761746572737562646976;
0x10000000000020000000e0000007370696e636c6f75646c617965720001000000;
0x1000000000c000000626c7572736b796c696768740000000000000000000a0000;
0x100776174657233737065630000000000960000000a0000007761746572327370;
0x165630000000000960000000500000077616c6c7a0001000000cdcc4c3e0c0000;
0x100776174657234636f6c6f75720000000000603010000b0000006d696e696d61;
0x170636c6970000000000000000000070000006c617661666f6700000000003200;
0x100000d000000656e766c61796572626c656e6400010000000000803f0b000000;
0x16c6971756964636f6173740001000000000020410b0000006c61766132636f6c;
0x16f757200000000000044ff00090000006c6d736861646f777300000000000200;
0x100000900000062756d706572726f720000000000030000001000000077617465;
0x1723366616c6c636f6c6f75720000000000000000000d000000796177636c6f75;
0x1646c617965720000000000000000000c000000636c6f75647363726f6c6c7900;
0x101000000000000000c000000636c6f75647363726f6c6c780001000000000000;
0x1000f000000636c6f75646c61796572676c6172650000000000000000000a0000;
0x1006d617062616c616e63650000000000000000000a0000007761746572347370;
0x165630000000000960000000e0000006772617373616e696d7363616c65000100;
0x100008fc2f53c0f0000006772617373616e696d6d696c6c69730000000000b80b;
0x100000d000000656e766c61796572676c61726500000000000000000009000000;
0x16f6269746465617468000200000000000000000c000000776174657233636f6c;
0x16f7572000000000060301000090000006c657270616e676c6500000000002c00;
0x100000a0000006772617373626c656e6400010000000000803f0d000000666f67;
0x1646f6d656865696768740001000000000000bf08000000656e766c6179657200;
0x10200000000000000000b000000636c6f7564636f6c6f75720000000000ffffff;
0x1000a0000007370696e636c6f7564730001000000000000000c00000063617573;
0x17469637363616c650000000000320000000a0000006d6178706c617965727300;
0x1000000000000000007000000656e76666164650001000000cdcc4c3e0b000000;
0x1676c617373636f6c6f75720000000000c08020000a000000656e767363726f6c;
0x16c790001000000000000000a000000656e767363726f6c6c7800010000000000;
0x100000d00000065646765746f6c6572616e636500000000000400000008000000;
0x1736b796c696768740000000000000000000d0000006d696e696d617068656967;
0x16874000000000000000000080000006f62697468757274000200000000000000;
0x100080000006f6269746c617661000200000000000000000a0000006c65727073;
0x17562646976000000000002000000080000006f62697466616c6c000200000000;
0x1000000000b000000796177656e766c617965720000000000000000000f000000;
0x1636c6f75646c61796572626c656e6400010000000000803f0c000000656e766d;
0x1617072616469757300000000008000000008000000656e767363616c65000100;
0x100000000803f0b000000696c6c756d7261646975730000000000000000000e00;
0x100006c69676874707265636973696f6e0000000000200000000a0000006e756d;
0x1706c6179657273000000000004000000080000006d61707469746c6500020000;
0x10000000000000e000000616461707469766573616d706c650000000000020000;
0x1000b000000666f67646f6d65636c697000010000000000803f0f000000776174;
0x1657266616c6c636f6c6f757200000000000000000006000000666c6f6f727a00;
0x101000000b6f35d3f0e000000736861646f776d6170616e676c65000000000000;
0x100000008000000636c6f7564626f7800020000000000000000100000006c6971;
0x1756964657874696e677569736800010000000000803e0b0000006c6971756964;
0x1737065656400010000009a99593f06000000736b79626f780002000000110000;
0x100736b79626f7865732f6772616469656e74000a000000666c6f6f72636f6173;
0x17400010000000000a0400b0000006772617373636f6c6f75720000000000ffff;
0x1ff000b0000006c61766134636f6c6f757200000000000044ff000a0000006875;
0x1727464616d61676500000000000300000009000000666f67636f6c6f75720000;
0x1000000b3998000080000006c61766134666f670000000000320000000c000000;
0x1676c61737334636f6c6f75720000000000c0802000080000006d61706d757369;
0x163000200000000000000000f00000063617573746963636f6e74726173740001;
0x10000009a99193f080000006c61766133666f670000000000320000000a000000;
0x167726173737363616c650000000000020000000b0000007761746572636f6c6f;
0x175720000000000603010000a000000666f67646f6d656d617800010000000000;
0x10000080000006c696768746c6f6400000000000000000007000000616d626965;
0x16e74000000000019191900080000006c61766132666f67000000000032000000;
0x10d0000006d696e696d6170636f6c6f7572000000000000000000080000006169;
0x172636f61737400010000000000c84106000000736c6f70657a00010000000000;
0x1003f0c00000072656672616374636c6561720000000000000000000a00000072;
0x1656672616374736b790000000000000000000b0000006c657270746a6f696e74;
0x17300000000000100000006000000796177736b790000000000000000000c0000;
0x100676c61737332636f6c6f75720000000000c08020000f000000736b79746578;
0x1747572656c696768740000000000010000000b00000073746169726865696768;
0x1740001000000333383400d000000666f67646f6d65636c6f7564730000000000;
0x10100000009000000776174657273706563000000000096000000090000007961;
0x177636c6f7564730000000000000000000b000000636c6f756473756264697600;
0x1000000001000000003000000666f670000000000a00f0000090000006d617061;
0x17574686f720002000000000000000009000000736b79636f6c6f757200000000;
0x100ffffff0009000000656e767375626469760000000000100000000a00000063;
0x16c6f7564676c61726500000000000000000008000000736b79676c6172650000;
0x100000000000000090000006f6269746c61766134000200000000000000000900;
0x100006f6269746c6176613300020000000000000000090000006f6269746c6176;
0x1613200020000000000000000080000007761746572666f670000000000960000;
0x10007000000626c75726c6d73000000000000000000000073fcffff0101000100;
0x10100010001000100010100010001000100010001000101000100010001000100;
0x10100010100010001000100010001000101000100010001000100010001010001;
0x10001000100010001000101000100010001000100010001010001000100010001;
0x1000100].

(** maps/empty-night.mpz (the first 3826 bytes) *)
Definition map_empty_night : list Z := [
0x14d41505a2b000000300000000004000000000000000000000000000000000000;
0x18d030000e600000001000000667073009b000000090000006f62697477617465;
0x172000200000000000000000a000000666f67646f6d656d696e00010000000000;
0x100000a0000006c696768746572726f7200000000000800000010000000736861;
0x1646f776d6170616d6269656e740000000000000000000b000000636c6f756468;
0x165696768740001000000cdcc4c3e09000000776174657233666f670000000000;
0x1960000000a0000006c617661636f6c6f757200000000000044ff000a00000066;
0x16f67646f6d656361700000000000010000000d0000006c69676874636f6d7072;
0x16573730000000000030000000d000000636175737469636d696c6c6973000000;
0x100004b00000009000000656e766865696768740001000000cdcc4c3e09000000;
0x1776174657234666f670000000000960000000a0000006f626974776174657232;
0x1000200000000000000000a0000006f6269747761746572330002000000000000;
0x100000a0000006f626974776174657234000200000000000000000e0000006c65;
0x1727073756264697673697a650000000000040000000a000000736c696465636f;
0x16173740001000000000020420d000000666f67646f6d65636f6c6f7572000000;
0x10000000000000a000000696c6c756d6c6576656c0001000000000000000b0000;
0x1006c61766133636f6c6f757200000000000044ff0008000000736b79626c656e;
0x16400010000000000803f0c00000068757274726573696475616c000000000000;
0x10000000a000000636c6f7564626c656e6400010000000000803f080000007761;
0x17465726c6f640000000000020000000a000000636c6f75646c61796572000200;
0x100000000000000040000006c6d61610000000000030000000900000076657274;
0x177617465720000000000010000000b000000736b796267636f6c6f7572000000;
0x1000000000000090000006875727464656c61790000000000e803000010000000;
0x177617465723466616c6c636f6c6f757200000000000000000010000000776174;
0x165723266616c6c636f6c6f75720000000000000000000c000000676c61737333;
0x1636f6c6f75720000000000c08020000a000000736b796267676c617265000000;
0x10000000000000c0000007370696e656e766c6179657200010000000000000013;
0x10000006c69676874707265636973696f6e717569636b00000000000008000010;
0x1000000636c6f75646c61796572636f6c6f75720000000000ffffff000c000000;
0x1636c6f75646f666673657479000100000000000000070000007370696e736b79;
0x10001000000000000000c000000636c6f75646f66667365747800010000000000;
0x1000009000000636c6f7564636c697000010000000000003f0c00000077617465;
0x17232636f6c6f757200000000006030100009000000636c6f7564666164650001;
0x1000000cdcc4c3e0e0000006c69717569647375626d6572676500010000000000;
0x1403f0a000000736b797465787475726500000000000100000007000000677261;
0x1766974790001000000000048420b000000677261737368656967687400000000;
0x1000400000009000000776174657232666f670000000000960000000a00000063;
0x16c6f75647363616c6500010000000000803f0900000073746570737065656400;
0x1010000000000803f0e000000656e766c61796572636f6c6f75720000000000ff;
0x1ffff000a000000656e766f6666736574790001000000000000000a000000656e;
0x1766f6666736574780001000000000000000b0000007761746572737562646976;
0x10000000000020000000e0000007370696e636c6f75646c617965720001000000;
0x1000000000c000000626c7572736b796c696768740000000000000000000a0000;
0x100776174657233737065630000000000960000000a0000007761746572327370;
0x165630000000000960000000500000077616c6c7a0001000000cdcc4c3e0c0000;
0x100776174657234636f6c6f75720000000000603010000b0000006d696e696d61;
0x170636c6970000000000000000000070000006c617661666f6700000000003200;
0x100000d000000656e766c61796572626c656e6400010000000000803f0b000000;
0x16c6971756964636f6173740001000000000020410b0000006c61766132636f6c;
0x16f757200000000000044ff00090000006c6d736861646f777300000000000200;
0x100000900000062756d706572726f720000000000030000001000000077617465;
0x1723366616c6c636f6c6f75720000000000000000000d000000796177636c6f75;
0x1646c617965720000000000000000000c000000636c6f75647363726f6c6c7900;
0x101000000000000000c000000636c6f75647363726f6c6c780001000000000000;
0x1000f000000636c6f75646c61796572676c6172650000000000000000000a0000;
0x1006d617062616c616e63650000000000000000000a0000007761746572347370;
0x165630000000000960000000e0000006772617373616e696d7363616c65000100;
0x100008fc2f53c0f0000006772617373616e696d6d696c6c69730000000000b80b;
0x100000d000000656e766c61796572676c61726500000000000000000009000000;
0x16f6269746465617468000200000000000000000c000000776174657233636f6c;
0x16f7572000000000060301000090000006c657270616e676c6500000000002c00;
0x100000a0000006772617373626c656e6400010000000000803f0d000000666f67;
0x1646f6d656865696768740001000000000000bf08000000656e766c6179657200;
0x10200000000000000000b000000636c6f7564636f6c6f75720000000000ffffff;
0x1000a0000007370696e636c6f7564730001000000000000000c00000063617573;
0x17469637363616c650000000000320000000a0000006d6178706c617965727300;
0x1000000000000000007000000656e76666164650001000000cdcc4c3e0b000000;
0x1676c617373636f6c6f75720000000000c08020000a000000656e767363726f6c;
0x16c790001000000000000000a000000656e767363726f6c6c7800010000000000;
0x100000d00000065646765746f6c6572616e636500000000000400000008000000;
0x1736b796c696768740000000000000000000d0000006d696e696d617068656967;
0x16874000000000000000000080000006f62697468757274000200000000000000;
0x100080000006f6269746c617661000200000000000000000a0000006c65727073;
0x17562646976000000000002000000080000006f62697466616c6c000200000000;
0x1000000000b000000796177656e766c617965720000000000000000000f000000;
0x1636c6f75646c61796572626c656e6400010000000000803f0c000000656e766d;
0x1617072616469757300000000008000000008000000656e767363616c65000100;
0x100000000803f0b000000696c6c756d7261646975730000000000000000000e00;
0x100006c69676874707265636973696f6e0000000000200000000a0000006e756d;
0x1706c6179657273000000000004000000080000006d61707469746c6500020000;
0x10000000000000e000000616461707469766573616d706c650000000000020000;
0x1000b000000666f67646f6d65636c697000010000000000803f0f000000776174;
0x1657266616c6c636f6c6f757200000000000000000006000000666c6f6f727a00;
0x101000000b6f35d3f0e000000736861646f776d6170616e676c65000000000000;
0x100000008000000636c6f7564626f7800020000000000000000100000006c6971;
0x1756964657874696e677569736800010000000000803e0b0000006c6971756964;
0x1737065656400010000009a99593f06000000736b79626f780002000000000000;
0x100000a000000666c6f6f72636f61737400010000000000a0400b000000677261;
0x17373636f6c6f75720000000000ffffff000b0000006c61766134636f6c6f7572;
0x100000000000044ff000a0000006875727464616d616765000000000003000000;
0x109000000666f67636f6c6f75720000000000b3998000080000006c6176613466;
0x16f670000000000320000000c000000676c61737334636f6c6f75720000000000;
0x1c0802000080000006d61706d75736963000200000000000000000f0000006361;
0x17573746963636f6e747261737400010000009a99193f080000006c6176613366;
0x16f670000000000320000000a00000067726173737363616c6500000000000200;
0x100000b0000007761746572636f6c6f75720000000000603010000a000000666f;
0x167646f6d656d6178000100000000000000080000006c696768746c6f64000000;
0x100000000000007000000616d6269656e74000000000019191900080000006c61;
0x1766132666f670000000000320000000d0000006d696e696d6170636f6c6f7572;
0x100000000000000000008000000616972636f61737400010000000000c8410600;
0x10000736c6f70657a00010000000000003f0c00000072656672616374636c6561;
0x1720000000000000000000a00000072656672616374736b790000000000000000;
0x1000b0000006c657270746a6f696e747300000000000100000006000000796177;
0x1736b790000000000000000000c000000676c61737332636f6c6f757200000000;
0x100c08020000f000000736b79746578747572656c696768740000000000010000;
0x1000b00000073746169726865696768740001000000333383400d000000666f67;
0x1646f6d65636c6f75647300000000000100000009000000776174657273706563;
0x100000000009600000009000000796177636c6f7564730000000000000000000b;
0x1000000636c6f756473756264697600000000001000000003000000666f670000;
0x1000000a00f0000090000006d6170617574686f72000200000000000000000900;
0x10000736b79636f6c6f75720000000000ffffff0009000000656e767375626469;
0x1760000000000100000000a000000636c6f7564676c6172650000000000000000;
0x10008000000736b79676c617265000000000000000000090000006f6269746c61;
0x176613400020000000000000000090000006f6269746c61766133000200000000;
0x100000000090000006f6269746c61766132000200000000000000000800000077;
0x161746572666f6700000000009600000007000000626c75726c6d730000000000;
0x100000000000073fcffff02010001000100010001000100020100010001000100;
0x10100010002010001000100010001000100020100010001000100010001000101;
0x10001000100010001000100010100010001000100010001000101000100010001;
0x1000100010001010001000100010001000100].

(** maps/empty2.mpz (the first 3899 bytes) *)
Definition map_empty2 : list Z := [
0x14d41505a2b000000300000000004000001000000000000000000000001000000;
0x18d030000e600000004000000667073009b000000090000006f62697477617465;
0x172000200000000000000000a000000666f67646f6d656d696e00010000000000;
0x100000a0000006c696768746572726f7200000000000800000010000000736861;
0x1646f776d6170616d6269656e740000000000000000000b000000636c6f756468;
0x165696768740001000000cdcc4c3e09000000776174657233666f670000000000;
0x1960000000a0000006c617661636f6c6f757200000000000044ff000a00000066;
0x16f67646f6d656361700000000000010000000d0000006c69676874636f6d7072;
0x16573730000000000030000000d000000636175737469636d696c6c6973000000;
0x100004b00000009000000656e766865696768740001000000cdcc4c3e09000000;
0x1776174657234666f670000000000960000000a0000006f626974776174657232;
0x1000200000000000000000a0000006f6269747761746572330002000000000000;
0x100000a0000006f626974776174657234000200000000000000000e0000006c65;
0x1727073756264697673697a650000000000040000000a000000736c696465636f;
0x16173740001000000000020420d000000666f67646f6d65636f6c6f7572000000;
0x10000000000000a000000696c6c756d6c6576656c0001000000000000000b0000;
0x1006c61766133636f6c6f757200000000000044ff0008000000736b79626c656e;
0x16400010000000000803f0c00000068757274726573696475616c000000000000;
0x10000000a000000636c6f7564626c656e6400010000000000803f080000007761;
0x17465726c6f640000000000020000000a000000636c6f75646c61796572000200;
0x100000000000000040000006c6d61610000000000030000000900000076657274;
0x177617465720000000000010000000b000000736b796267636f6c6f7572000000;
0x1000000000000090000006875727464656c61790000000000e803000010000000;
0x177617465723466616c6c636f6c6f757200000000000000000010000000776174;
0x165723266616c6c636f6c6f75720000000000000000000c000000676c61737333;
0x1636f6c6f75720000000000c08020000a000000736b796267676c617265000000;
0x10000000000000c0000007370696e656e766c6179657200010000000000000013;
0x10000006c69676874707265636973696f6e717569636b00000000000008000010;
0x1000000636c6f75646c61796572636f6c6f75720000000000ffffff000c000000;
0x1636c6f75646f666673657479000100000000000000070000007370696e736b79;
0x10001000000000000000c000000636c6f75646f66667365747800010000000000;
0x1000009000000636c6f7564636c697000010000000000003f0c00000077617465;
0x17232636f6c6f757200000000006030100009000000636c6f7564666164650001;
0x1000000cdcc4c3e0e0000006c69717569647375626d6572676500010000000000;
0x1403f0a000000736b797465787475726500000000000100000007000000677261;
0x1766974790001000000000048420b000000677261737368656967687400000000;
0x1000400000009000000776174657232666f670000000000960000000a00000063;
0x16c6f75647363616c6500010000000000803f0900000073746570737065656400;
0x1010000000000803f0e000000656e766c61796572636f6c6f75720000000000ff;
0x1ffff000a000000656e766f6666736574790001000000000000000a000000656e;
0x1766f6666736574780001000000000000000b0000007761746572737562646976;
0x10000000000020000000e0000007370696e636c6f75646c617965720001000000;
0x1000000000c000000626c7572736b796c696768740000000000000000000a0000;
0x100776174657233737065630000000000960000000a0000007761746572327370;
0x165630000000000960000000500000077616c6c7a0001000000cdcc4c3e0c0000;
0x100776174657234636f6c6f75720000000000603010000b0000006d696e696d61;
0x170636c6970000000000000000000070000006c617661666f6700000000003200;
0x100000d000000656e766c61796572626c656e6400010000000000803f0b000000;
0x16c6971756964636f6173740001000000000020410b0000006c61766132636f6c;
0x16f757200000000000044ff00090000006c6d736861646f777300000000000200;
0x100000900000062756d706572726f720000000000030000001000000077617465;
0x1723366616c6c636f6c6f75720000000000000000000d000000796177636c6f75;
0x1646c617965720000000000000000000c000000636c6f75647363726f6c6c7900;
0x101000000000000000c000000636c6f75647363726f6c6c780001000000000000;
0x1000f000000636c6f75646c61796572676c6172650000000000000000000a0000;
0x1006d617062616c616e63650000000000000000000a0000007761746572347370;
0x165630000000000960000000e0000006772617373616e696d7363616c65000100;
0x100008fc2f53c0f0000006772617373616e696d6d696c6c69730000000000b80b;
0x100000d000000656e766c61796572676c61726500000000000000000009000000;
0x16f6269746465617468000200000000000000000c000000776174657233636f6c;
0x16f7572000000000060301000090000006c657270616e676c6500000000002c00;
0x100000a0000006772617373626c656e6400010000000000803f0d000000666f67;
0x1646f6d656865696768740001000000000000bf08000000656e766c6179657200;
0x10200000000000000000b000000636c6f7564636f6c6f75720000000000ffffff;
0x1000a0000007370696e636c6f7564730001000000000000000c00000063617573;
0x17469637363616c650000000000320000000a0000006d6178706c617965727300;
0x1000000000000000007000000656e76666164650001000000cdcc4c3e0b000000;
0x1676c617373636f6c6f75720000000000c08020000a000000656e767363726f6c;
0x16c790001000000000000000a000000656e767363726f6c6c7800010000000000;
0x100000d00000065646765746f6c6572616e636500000000000400000008000000;
0x1736b796c696768740000000000000000000d0000006d696e696d617068656967;
0x16874000000000000000000080000006f62697468757274000200000000000000;
0x100080000006f6269746c617661000200000000000000000a0000006c65727073;
0x17562646976000000000002000000080000006f62697466616c6c000200000000;
0x1000000000b000000796177656e766c617965720000000000000000000f000000;
0x1636c6f75646c61796572626c656e6400010000000000803f0c000000656e766d;
0x1617072616469757300000000008000000008000000656e767363616c65000100;
0x100000000803f0b000000696c6c756d7261646975730000000000000000000e00;
0x100006c69676874707265636973696f6e0000000000800000000a0000006e756d;
0x1706c6179657273000000000004000000080000006d61707469746c6500020000;
0x10000000000000e000000616461707469766573616d706c650000000000020000;
0x1000b000000666f67646f6d65636c697000010000000000803f0f000000776174;
0x1657266616c6c636f6c6f757200000000000000000006000000666c6f6f727a00;
0x101000000b6f35d3f0e000000736861646f776d6170616e676c65000000000000;
0x100000008000000636c6f7564626f7800020000000000000000100000006c6971;
0x1756964657874696e677569736800010000000000803e0b0000006c6971756964;
0x1737065656400010000009a99593f06000000736b79626f780002000000110000;
0x100736b79626f7865732f6772616469656e74000a000000666c6f6f72636f6173;
0x17400010000000000a0400b0000006772617373636f6c6f75720000000000ffff;
0x1ff000b0000006c61766134636f6c6f757200000000000044ff000a0000006875;
0x1727464616d61676500000000000300000009000000666f67636f6c6f75720000;
0x1000000b3998000080000006c61766134666f670000000000320000000c000000;
0x1676c61737334636f6c6f75720000000000c0802000080000006d61706d757369;
0x163000200000000000000000f00000063617573746963636f6e74726173740001;
0x10000009a99193f080000006c61766133666f670000000000320000000a000000;
0x167726173737363616c650000000000020000000b0000007761746572636f6c6f;
0x175720000000000603010000a000000666f67646f6d656d617800010000000000;
0x10000080000006c696768746c6f6400000000000000000007000000616d626965;
0x16e74000000000019191900080000006c61766132666f67000000000032000000;
0x10d0000006d696e696d6170636f6c6f7572000000000000000000080000006169;
0x172636f61737400010000000000c84106000000736c6f70657a00010000000000;
0x1003f0c00000072656672616374636c6561720000000000000000000a00000072;
0x1656672616374736b790000000000000000000b0000006c657270746a6f696e74;
0x17300000000000100000006000000796177736b790000000000000000000c0000;
0x100676c61737332636f6c6f75720000000000c08020000f000000736b79746578;
0x1747572656c696768740000000000010000000b00000073746169726865696768;
0x1740001000000333383400d000000666f67646f6d65636c6f7564730000000000;
0x10100000009000000776174657273706563000000000096000000090000007961;
0x177636c6f7564730000000000000000000b000000636c6f756473756264697600;
0x1000000001000000003000000666f670000000000a00f0000090000006d617061;
0x17574686f720002000000000000000009000000736b79636f6c6f757200000000;
0x100ffffff0009000000656e767375626469760000000000100000000a00000063;
0x16c6f7564676c61726500000000000000000008000000736b79676c6172650000;
0x100000000000000090000006f6269746c61766134000200000000000000000900;
0x100006f6269746c6176613300020000000000000000090000006f6269746c6176;
0x1613200020000000000000000080000007761746572666f670000000000960000;
0x10007000000626c75726c6d73000000000000000000000000000f4400007d4400;
0x100754408000000080000000000000000000000ff000000ff000000ff0000002d;
0x100000000000000000000000000000073fcffff01010001000100010001000100;
0x10101000100010001000100010001010001000100010001000100010100010001;
0x10001000100010001010001000100010001000100010100010001000100010001;
0x1000101000100010001000100010001010001000100010001000100].
