From Verif Require Import Base VeraFile.
Local Open Scope N_scope.
(** tests/pdf.rs:11: the 22572 bytes of tests/fonts/ahem/ahem.ttf *)
Definition ahem_ttf : bytes := unpack 22572 [
0x66796c6710000000400600000900170070736167240500001c0100006cb4444570616d6360000000bc0000007ff86673322f534f3000030080000b0000000100;
0x61636f6c64040000a42100009d03be2478746d6824000000802100003a040a07616568683600000048210000b5cd50db64616568f61a0000500600001a182000;
0xd60303009d0300008c540000f191f54074736f702e2c00005c280000160db0d1656d616e200000003c28000009001c017078616d340200000826000013d342cc;
0xfffe2000400020433357000000000000000048200010af00008000000000000000040002000003013200c50100008a02bc028f0000008a02bc02000005009001;
0x26004000070000014001000010050400140000000100030014000000030000000200000000002000000020032003ffff000007fc10ffc8002003000038ff2003;
0xc000bf00be00bd00bc00bb00ba00b900b800b700b600b500b400b300b100b000af00ae00ad00ac00ab00aa00a900a800a700a600a500a400a300a100a0007e00;
0xe500e400e300e200e100e000df00de00dd00dc00db00d900d800d700d600d500d400d200d100d000cf00cc00cb00ca00c900c800c700c600c500c300c200c100;
0xdb02da02c902c702c6029201780153013101ff00fe00fd00fc00fa00f900f800f700f600f500f400f300f200f100f000ef00ed00ec00eb00e900e800e700e600;
0x2b221e221a221922122211220f22062202222621222144203a203020262022201e201a201920142010200d200b200620c003bc03a903a703a5039403dd02dc02;
0xfffffffe02f0d191b57e317e267e6b70346c6b6a2a6a28671f57db56d75641536d516b51944e8c4e5d4e094e034e004e07300030ca25f222652260224822;
0xbf00be00bd00bc00bb00ba00b900b800b700b600b500b400b200b100b000af00ae00ad00ac00ab00aa00a900a800a700a600a500a400a200a100a00028002000;
0xe400e300e200e100e000df00de00dd00dc00da00d900d800d700d600d500d300d200d100d000cd00cc00cb00ca00c900c800c700c600c400c300c200c100c000;
0xd802c902c702c6029201780152013101ff00fe00fd00fb00fa00f900f800f700f600f500f400f300f200f100f000ee00ed00ec00ea00e900e800e700e600e500;
0x1e221a221922122211220f220622022226212221442039203020262020201c201a201820132010200c2009200220c003bc03a903a703a5039403dd02dc02db02;
0xfffffffe00f0d191b57e317e267e6b70346c6b6a2a6a28671f57db56d75641536d516b51944e8c4e5d4e094e034e004e07300030ca25f2226422602248222b22;
0xd5ff0d000c000e00ddffd7ff0d000100ebffcfffdaffd5ff1500dcffd1ff0600d9ff1700eaffecffe6ffdfffe2ffddff1700e9fffdffe0fff4fff9ffe2ffe3ff;
0x87ff89ff88ff87ff89ffa7ffe4ffe3ff8bffd5ffd8ffb4ffeeff90ffc7ffd9ffdcff94ffeeffdbffdfffdbffdaff9bffdfff9cffc5ff9dffd8ffe1ffe4ffdaff;
0xdefdecfdf5fdedfd3fff58ff7cff81ffa1ffc5ffc4ff84ff83ff85ff9bffa8ff85ff87ff86ff85ff87ff86ffcfff87ff86ff88ff87ff86ff88ff87ffacff88ff;
0xcadecdde89deb2ded5ded6deccdee2deaddfc1df9ee0a7e0afe0b8e0bbe0bce0bde085e0c2e0ffdff3e0f2e0f4e014fdd3fc2afd6bfd70fd3efdddfdd8fde0fd;
0x100f601ef103f6f6182e782f182a290da94a996e996e799f2a929aa35aac9ad99af9daf71b276b2acb2fab204b301b304d1fed024dbfbdd87de8adea5debede;
0x0; 0x0; 0x0; 0x0; 0x0;
0xe80338ff0000010026027de0fc20030cfef4018ffdee027d211121251121113300000700030020036b0300007d0002000300ffff010010000200080003000000;
0xe80321112111000003002003e80338ff0000010018fc200318fce80321112111000003002003e80338ff0000010018fc200318fce80321112111000003002003;
0x38ff0000010018fc200318fce80321112111000003002003e80338ff0000010018fc200318fce80321112111000003002003e80338ff0000010018fc200318fc;
0x21112111000003002003e80338ff0000010018fc200318fce80321112111000003002003e80338ff0000010018fc200318fce80321112111000003002003e803;
0x10018fc200318fce80321112111000003002003e80338ff0000010018fc200318fce80321112111000003002003e80338ff0000010018fc200318fce803;
0x2111000003002003e80338ff0000010018fc200318fce80321112111000003002003e80338ff0000010018fc200318fce80321112111000003002003e80338ff;
0x10018fc200318fce80321112111000003002003e80338ff0000010018fc200318fce80321112111000003002003e80338ff0000010018fc200318fce8032111;
0x3002003e80338ff0000010018fc200318fce80321112111000003002003e80338ff0000010018fc200318fce80321112111000003002003e80338ff0000;
0x18fc200318fce80321112111000003002003e80338ff0000010018fc200318fce80321112111000003002003e80338ff0000010018fc200318fce80321112111;
0x3002003e80338ff0000010018fc200318fce80321112111000003002003e80338ff0000010018fc200318fce80321112111000003002003e80338ff00000100;
0x200318fce80321112111000003002003e80338ff0000010018fc200318fce80321112111000003002003e80338ff0000010018fc200318fce803211121110000;
0x2003e80338ff0000010018fc200318fce80321112111000003002003e80338ff0000010018fc200318fce80321112111000003002003e80338ff0000010018fc;
0x18fce80321112111000003002003e80338ff0000010018fc200318fce80321112111000003002003e80338ff0000010018fc200318fce8032111211100000300;
0xe80338ff0000010018fc200318fce80321112111000003002003e80338ff0000010018fc200318fce80321112111000003002003e80338ff0000010018fc2003;
0xe80321112111000003002003e80338ff0000010018fc200318fce80321112111000003002003e80338ff0000010018fc200318fce80321112111000003002003;
0x38ff0000010018fc200318fce80321112111000003002003e80338ff0000010018fc200318fce80321112111000003002003e80338ff0000010018fc200318fc;
0x21112111000003002003e80338ff0000010018fc200318fce80321112111000003002003e80338ff0000010018fc200318fce80321112111000003002003e803;
0x10018fc200318fce80321112111000003002003e80338ff0000010018fc200318fce80321112111000003002003e80338ff0000010018fc200318fce803;
0x2111000003002003e80338ff0000010018fc200318fce80321112111000003002003e80338ff0000010018fc200318fce80321112111000003002003e80338ff;
0x10018fc200318fce80321112111000003002003e80338ff0000010018fc200318fce80321112111000003002003e80338ff0000010018fc200318fce8032111;
0x3002003e80338ff0000010018fc200318fce80321112111000003002003e80338ff0000010018fc200318fce80321112111000003002003e80338ff0000;
0x18fc200318fce80321112111000003002003e80338ff0000010018fc200318fce80321112111000003002003e80338ff0000010018fc200318fce80321112111;
0x3002003e80338ff0000010018fc200318fce80321112111000003002003e80338ff0000010018fc200318fce80321112111000003002003e80338ff00000100;
0x200318fce80321112111000003002003e80338ff0000010018fc200318fce80321112111000003002003e80338ff0000010018fc200318fce803211121110000;
0x2003e80338ff0000010018fc200318fce80321112111000003002003e80338ff0000010018fc200318fce80321112111000003002003e80338ff0000010018fc;
0x18fce80321112111000003002003e80338ff0000010018fc200318fce80321112111000003002003e80338ff0000010018fc200318fce8032111211100000300;
0xe80338ff0000010018fc200318fce80321112111000003002003e80338ff0000010018fc200318fce80321112111000003002003e80338ff0000010018fc2003;
0xe80321112111000003002003e80338ff0000010018fc200318fce80321112111000003002003e80338ff0000010018fc200318fce80321112111000003002003;
0x38ff0000010018fc200318fce80321112111000003002003e80338ff0000010018fc200318fce80321112111000003002003e80338ff0000010018fc200318fc;
0x21112111000003002003e80338ff0000010018fc200318fce80321112111000003002003e80338ff0000010018fc200318fce80321112111000003002003e803;
0x10018fc200318fce80321112111000003002003e80338ff0000010018fc200318fce80321112111000003002003e80338ff0000010018fc200318fce803;
0x2111000003002003e80338ff0000010018fc200318fce80321112111000003002003e80338ff0000010018fc200318fce80321112111000003002003e80338ff;
0x10000c818fce80321152131000003000000e80338ff0000010018fc200318fce80321112111000003002003e80338ff0000010018fc200318fce8032111;
0x2111000003002003e80338ff0000010018fc200318fce80321112111000003002003e80338ff0000010018fc200318fce80321112111000003002003e80338ff;
0x10018fc200318fce80321112111000003002003e80338ff0000010018fc200318fce80321112111000003002003e80338ff0000010018fc200318fce8032111;
0x3002003e80338ff0000010018fc200318fce80321112111000003002003e80338ff0000010018fc200318fce80321112111000003002003e80338ff0000;
0x18fc200318fce80321112111000003002003e80338ff0000010018fc200318fce80321112111000003002003e80338ff0000010018fc200318fce80321112111;
0x3002003e80338ff0000010018fc200318fce80321112111000003002003e80338ff0000010018fc200318fce80321112111000003002003e80338ff00000100;
0x200318fce80321112111000003002003e80338ff0000010018fc200318fce80321112111000003002003e80338ff0000010018fc200318fce803211121110000;
0x2003e80300000000010018fc200318fce80321112111000003002003e80338ff0000010018fc200318fce80321112111000003002003e80338ff0000010018fc;
0x18fce80321112111000003002003e80338ff0000010018fc200318fce80321112111000003002003e80338ff00000100e0fc200318fce8032111211100000300;
0xe80338ff0000010018fc200318fce80321112111000003002003e80338ff0000010018fc200318fce80321112111000003002003e80338ff0000010018fc2003;
0xe80321112111000003002003e80338ff0000010018fc200318fce80321112111000003002003e80338ff0000010018fc200318fce80321112111000003002003;
0x38ff0000010018fc200318fce80321112111000003002003e80338ff0000010018fc200318fce80321112111000003002003e80338ff0000010018fc200318fc;
0x21112111000003002003e80338ff0000010018fc200318fce80321112111000003002003e80338ff0000010018fc200318fce80321112111000003002003e803;
0x10018fc200318fce80321112111000003002003e80338ff0000010018fc200318fce80321112111000003002003e80338ff0000010018fc200318fce803;
0x2111000003002003e80338ff0000010018fc200318fce80321112111000003002003e80338ff0000010018fc200318fce80321112111000003002003e80338ff;
0x10018fc200318fce80321112111000003002003e80338ff0000010018fc200318fce80321112111000003002003e80338ff0000010018fc200318fce8032111;
0x3002003e80338ff0000010018fc200318fce80321112111000003002003e80338ff0000010018fc200318fce80321112111000003002003e80338ff0000;
0x18fc200318fce80321112111000003002003e80338ff0000010018fc200318fce80321112111000003002003e80338ff0000010018fc200318fce80321112111;
0x3002003e80338ff0000010018fc200318fce80321112111000003002003e80338ff0000010018fc200318fce80321112111000003002003e80338ff00000100;
0x200318fce80321112111000003002003e80338ff0000010018fc200318fce80321112111000003002003e80338ff0000010018fc200318fce803211121110000;
0x2003e80338ff0000010018fc200318fce80321112111000003002003e80338ff0000010018fc200318fce80321112111000003002003e80338ff0000010018fc;
0x18fce80321112111000003002003e80338ff0000010018fc200318fce80321112111000003002003e80338ff0000010018fc200318fce8032111211100000300;
0xe80338ff0000010018fc200318fce80321112111000003002003e80338ff0000010018fc200318fce80321112111000003002003e80338ff0000010018fc2003;
0xe80321112111000003002003e80338ff0000010018fc200318fce80321112111000003002003e80338ff0000010018fc200318fce80321112111000003002003;
0x38ff0000010018fc200318fce80321112111000003002003e80338ff0000010018fc200318fce80321112111000003002003e80338ff0000010018fc200318fc;
0x21112111000003002003e80338ff0000010018fc200318fce80321112111000003002003e80338ff0000010018fc200318fce80321112111000003002003e803;
0x10018fc200318fce80321112111000003002003e80338ff0000010018fc200318fce80321112111000003002003e80338ff0000010018fc200318fce803;
0x2111000003002003e80338ff0000010018fc200318fce80321112111000003002003e80338ff0000010018fc200318fce80321112111000003002003e80338ff;
0x10018fc200318fce80321112111000003002003e80338ff0000010018fc200318fce80321112111000003002003e80338ff0000010018fc200318fce8032111;
0x3002003e80338ff0000010018fc200318fce80321112111000003002003e80338ff0000010018fc200318fce80321112111000003002003e80338ff0000;
0x18fc200318fce80321112111000003002003e80338ff0000010018fc200318fce80321112111000003002003e80338ff0000010018fc200318fce80321112111;
0x3002003e80338ff0000010018fc200318fce80321112111000003002003e80338ff0000010018fc200318fce80321112111000003002003e80338ff00000100;
0x200318fce80321112111000003002003e80338ff0000010018fc200318fce80321112111000003002003e80338ff0000010018fc200318fce803211121110000;
0x2003e80338ff0000010018fc200318fce80321112111000003002003e80338ff0000010018fc200318fce80321112111000003002003e80338ff0000010018fc;
0x18fce80321112111000003002003e80338ff0000010018fc200318fce80321112111000003002003e80338ff0000010018fc200318fce8032111211100000300;
0xe80338ff0000010018fc200318fce80321112111000003002003e80338ff0000010018fc200318fce80321112111000003002003e80338ff0000010018fc2003;
0xe80321112111000003002003e80338ff0000010018fc200318fce80321112111000003002003e80338ff0000010018fc200318fce80321112111000003002003;
0x38ff0000010018fc200318fce80321112111000003002003e80338ff0000010018fc200318fce80321112111000003002003e80338ff0000010018fc200318fc;
0x21112111000003002003e80338ff0000010018fc200318fce80321112111000003002003e80338ff0000010018fc200318fce80321112111000003002003e803;
0x10018fc200318fce80321112111000003002003e80338ff0000010018fc200318fce80321112111000003002003e80338ff0000010018fc200318fce803;
0x2111000003002003e80338ff0000010018fc200318fce80321112111000003002003e80338ff0000010018fc200318fce80321112111000003002003e80338ff;
0x10018fc200318fce80321112111000003002003e80338ff0000010018fc200318fce80321112111000003002003e80338ff0000010018fc200318fce8032111;
0x3002003e80338ff0000010018fc200318fce80321112111000003002003e80338ff0000010018fc200318fce80321112111000003002003e80338ff0000;
0x18fc200318fce80321112111000003002003e80338ff0000010018fc200318fce80321112111000003002003e80338ff0000010018fc200318fce80321112111;
0x3002003e80338ff0000010018fc200318fce80321112111000003002003e80338ff0000010018fc200318fce80321112111000003002003e80338ff00000100;
0x200318fce80321112111000003002003e80338ff0000010018fc200318fce80321112111000003002003e80338ff0000010018fc200318fce803211121110000;
0x2003e80338ff0000010018fc200318fce80321112111000003002003e80338ff0000010018fc200318fce80321112111000003002003e80338ff0000010018fc;
0x18fce80321112111000003002003e80338ff0000010018fc200318fce80321112111000003002003e80338ff0000010018fc200318fce8032111211100000300;
0xe80338ff0000010018fc200318fce80321112111000003002003e80338ff0000010018fc200318fce80321112111000003002003e80338ff0000010018fc2003;
0xe80321112111000003002003e80338ff0000010018fc200318fce80321112111000003002003e80338ff0000010018fc200318fce80321112111000003002003;
0x38ff0000010018fc200318fce80321112111000003002003e80338ff0000010018fc200318fce80321112111000003002003e80338ff0000010018fc200318fc;
0x21112111000003002003e80338ff0000010018fc200318fce80321112111000003002003e80338ff0000010018fc200318fce80321112111000003002003e803;
0x10018fc200318fce80321112111000003002003e80338ff0000010018fc200318fce80321112111000003002003e80338ff0000010018fc200318fce803;
0x2111000003002003e80338ff0000010018fc200318fce80321112111000003002003e80338ff0000010018fc200318fce80321112111000003002003e80338ff;
0x10018fc200318fce80321112111000003002003e80338ff0000010018fc200318fce80321112111000003002003e80338ff0000010018fc200318fce8032111;
0x3002003e80338ff0000010018fc200318fce80321112111000003002003e80338ff0000010018fc200318fce80321112111000003002003e80338ff0000;
0x18fc200318fce80321112111000003002003e80338ff0000010018fc200318fce80321112111000003002003e80338ff0000010018fc200318fce80321112111;
0x3002003e80338ff0000010018fc200318fce80321112111000003002003e80338ff0000010018fc200318fce80321112111000003002003e80338ff00000100;
0x200318fce80321112111000003002003e80338ff0000010018fc200318fce80321112111000003002003e80338ff0000010018fc200318fce803211121110000;
0x2003e80338ff0000010018fc200318fce80321112111000003002003e80338ff0000010018fc200318fce80321112111000003002003e80338ff0000010018fc;
0x18fce80321112111000003002003e80338ff0000010018fc200318fce80321112111000003002003e80338ff0000010018fc200318fce8032111211100000300;
0xe80338ff0000010018fc200318fce80321112111000003002003e80338ff0000010018fc200318fce80321112111000003002003e80338ff0000010018fc2003;
0xe80321112111000003002003e80338ff0000010018fc200318fce80321112111000003002003e80338ff0000010018fc200318fce80321112111000003002003;
0x38ff0000010018fc200318fce80321112111000003002003e80338ff0000010018fc200318fce80321112111000003002003e80338ff0000010018fc200318fc;
0x21112111000003002003e80338ff0000010018fc200318fce80321112111000003002003e80338ff0000010018fc200318fce80321112111000003002003e803;
0x10018fc200318fce80321112111000003002003e80338ff0000010018fc200318fce80321112111000003002003e80338ff0000010018fc200318fce803;
0x2111000003002003e80338ff0000010018fc200318fce80321112111000003002003e80338ff0000010018fc200318fce80321112111000003002003e80338ff;
0x10018fc200318fce80321112111000003002003e80338ff0000010018fc200318fce80321112111000003002003e80338ff0000010018fc200318fce8032111;
0x3002003e80338ff0000010018fc200318fce80321112111000003002003e80338ff0000010018fc200318fce80321112111000003002003e80338ff0000;
0x18fc200318fce80321112111000003002003e80338ff0000010018fc200318fce80321112111000003002003e80338ff0000010018fc200318fce80321112111;
0x3002003e80338ff0000010018fc200318fce80321112111000003002003e80338ff0000010018fc200318fce80321112111000003002003e80338ff00000100;
0x200318fce80321112111000003002003e80338ff0000010018fc200318fce80321112111000003002003e80338ff0000010018fc200318fce803211121110000;
0x2003e80338ff0000010018fc200318fce80321112111000003002003e80338ff0000010018fc200318fce80321112111000003002003e80338ff0000010018fc;
0x18fce80321152111000003005802e80390010000010000c8580218fce80321152111000003005802e80390010000010018fc200318fce8032111211100000300;
0x900138ffc80001000018fc2003c8c8c823113313000003002003900138ffc800010000c8580218fce80321152111000003005802e80390010000010000c85802;
0xc8c823113313000003002003900138ffc80001000018fc2003c8c8c823113313000003002003900138ffc80001000018fc2003c8c8c823113313000003002003;
0x30000002003e80338ff000024abddc400000000595f6fb300000000e8030900f53c0f5fca8a34fe008001000000010000000018fc2003c8;
0xe8030000e8030000e8030000e8030000e803000000007d00e803190100000000000000000000000000000100e80300000000e803000038ff200300000100;
0xe8030000e8030000e8030000e8030000e8030000e8030000e8030000e8030000e8030000e8030000e8030000e8030000e8030000e8030000e8030000e803;
0xe8030000e8030000e8030000e8030000e8030000e8030000e8030000e8030000e8030000e8030000e8030000e8030000e8030000e8030000e8030000e803;
0xe8030000e8030000e8030000e8030000e8030000e8030000e8030000e8030000e8030000e8030000e8030000e8030000e8030000e8030000e8030000e803;
0xe8030000e8030000e8030000e8030000e8030000e8030000e8030000e8030000e8030000e8030000e8030000e8030000e8030000e8030000e8030000e803;
0xe8030000e8030000e8030000e8030000e8030000e8030000e8030000e8030000e8030000e8030000e8030000e8030000e8030000e8030000e8030000e803;
0xe8030000e8030000e8030000e8030000e8030000e8030000e8030000e8030000e8030000e8030000e8030000e8030000e8030000e8030000e8030000e803;
0xe8030000e8030000e8030000e8030000e8030000e8030000e8030000e8030000e8030000e8030000e8030000e8030000e8030000e8030000e8030000e803;
0xe8030000e8030000e8030000e8030000e8030000e8030000e8030000e8030000e8030000e8030000e8030000e8030000e8030000e8030000e8030000e803;
0xe8030000e8030000e8030000e8030000e8030000e8030000e8030000e8030000e8030000e8030000e8030000e8030000e8030000e8030000e8030000e803;
0xe8030000e8030000e8030000e8030000e8030000e8030000e8030000e8030000e8030000e8030000e8030000e8030000e8030000e8030000e8030000e803;
0xe8030000e8030000e8030000e8030000e8030000e8030000e8030000e8030000e8030000e8030000e8030000e8030000e8030000e8030000e8030000e803;
0xe8030000e8030000e8030000e8030000e8030000e8030000e8030000e8030000e8030000e8030000e8030000e8030000e8030000e8030000e8030000e803;
0xe8030000e8030000e8030000e8030000e8030000e8030000e8030000e8030000e8030000e8030000e8030000e8030000e8030000e8030000e8030000e803;
0xe8030000e8030000e8030000e8030000e8030000e8030000e8030000e8030000e8030000e8030000e8030000e8030000e8030000e8030000e8030000e803;
0xf401000000000000e8030000e8030000e8030000e8030000e8030000e8030000e8030000e8030000e8030000e8030000e8030000e8030000e8030000e803;
0xe8030000e8030000e8030000e8030000e8030000e80300000000000000000000e80300000000000064000000c8000000a7000000fa0000004d010000e803;
0xc800e803c800e8030000e8030000e8030000e8030000e8030000e8030000e8030000e8030000e8030000e8030000e8030000e8030000e8030000e8030000e803;
0x3f013201250118010b01fe00f100e400d700ca00bd00b000a300960089007c006f006200550048003b002e00210014001400140014000000c800e803c800e803;
0xdf02d202c502b802ab029e029102840277026a025d0250024302360229021c020f020202f501e801db01ce01c101b401a7019a018d0180017301660159014c01;
0x7e047104640457044a043d043004230416040a04fd03f003e303d603c903bc03af03a203950388037b036e036103540347033a032d03200313030603f902ec02;
0x1e0611060406f705ea05dd05d005c305b605a9059c058f058205750568055b054e054105340527051a050d050005f304e604d904cc04bf04b204a50498048b04;
0xb107a407a40797078a077d0770076307560749073c072f07220715070807fb06ee06e106d406c706ba06ad06a0069306860679066c065f065206450638062b06;
0x5109440937092a091d0910090309f608e908dc08cf08c208b508a8089b088e088108740867085a084d0840083308260819080c08ff07f207e507d807cb07be07;
0xf10ae40ad70aca0abd0ab00aa30a960a890a7c0a6f0a620a550a480a3b0a2e0a210a140a070afa09ed09e009d309c609b909ac099f099209850978096b095e09;
0x430c430c430c430c430c430c430c360c290c1c0c0f0c020cf50be80bdb0bce0bc10bb40ba70b9a0b8d0b800b730b660b590b4c0b3f0b320b250b180b0b0bfe0a;
0x1007b0d6e0d610d540d470d3a0d2d0d200d130d060df90cec0cdf0cd20cc50cb80cab0c9e0c910c840c770c6a0c5d0c500c430c430c430c430c430c430c;
0xf001080001000000000000000000f0010000000000000000b6012400000000000000000000000000000000000000010000000000020008001901;
0xae110a00000000000000480208000600000000000000300218000500000000000000280208000400000000000000060222000300000000000000f8010e000200;
0x1007015070002000000000001006c15040001000000000001007414f8000000000000000100221452000e00000000000000fe1324000b000000000000005002;
0x1009c1500000a000000000001009815040006000000000001008c150c00050000000000010088150400040000000000010077151100030000000000;
0xf0010000090401000300e21504001200000000000100db1507001100000000000100d71504001000000000000100ae1529000e000000000001009c1512000b00;
0x3001618180005000904010003000e1808000400090401000300ec1722000300090401000300de170e000200090401000300d61708000100090401000300e615;
0x904010003005a2a08001000090401000300082a52000e00090401000300e42924000b000904010003003618ae110a000904010003002e180800060009040100;
0x74002000730067006e006f006c0065006200200074006e006f00660020006d006500680041002000650068005400702a08001200090401000300622a0e001100;
0x63006900640073006900720075006a0020006e00490020002e006e00690061006d006f0064002000630069006c00620075007000200065006800740020006f00;
0x6c00620075007000200065007a0069006e0067006f00630065007200200074006f006e0020006f00640020007400610068007400200073006e006f0069007400;
0x6c0069006600200065007300650068007400200066006f0020007000690068007300720065006e0077006f0020006e00690061006d006f006400200063006900;
0x6f006d006d006f004300200065007600690074006100650072004300200067006e00690077006f006c006c006f006600200065006800740020002c0073006500;
0x74007400680020003a007300650069006c0070007000610020006e006f00690074006100720061006c0063006500640020006f00720065005a00200073006e00;
0x630069006c002f00670072006f002e0073006e006f006d006d006f006300650076006900740061006500720063002e007300620061006c002f002f003a007000;
0x64006f0063006c006100670065006c002f00730075002f0030002e0031002f00650076006900610077002d006f00720065007a002f007300650073006e006500;
0x6500680041006d006500680041002000300035002e00310020006e006f0069007300720065005600720061006c0075006700650052006d006500680041006500;
0x7700200074006e006f00660020006d0065006800410020006500680054006d00650068004100300035002e00310020006e006f00690073007200650056006d00;
0x64006e0061002000720065006e0072006800610046002000640064006f00540020007900620020006400650070006f006c006500760065006400200073006100;
0x20007400730065007400200070006c006500680020006f007400200064006c00650069006600780061004d0020002e0043002000730065006c0079004d002000;
0x7400730065007400200065006c00620061007400630069006400650072007000200070006f006c00650076006500640020007300720065007400690072007700;
0x65006800740020002c00300030003000310020007300690020006d006500200072006500700020007300740069006e007500200065006800540020002e007300;
0x74006e00650063007300650064002000650068007400200064006e00610020002c003000300038002000730069002000650063006e0061007600640061002000;
0x730020006d0065002000650068007400200067006e0069006b0061006d002000790062006500720065006800740020002c003000300032002000730069002000;
0x73006800700079006c006700200065006800540020002e00650072006100750071007300200079006c0074006300610078006500200065007200610075007100;
0x6100200079006c0070006d0069007300200073006900200073007200650074006300610072006100680063002000740073006f006d00200072006f0066002000;
0x6800540020002e0065007200610075007100730020007300690068007400200073006c006c0069006600200068006300690068007700200078006f0062002000;
0x6c006c00750066002000730069006800740020006f0074002000640065007000700061006d002000730074006e0069006f007000650064006f00630020006500;
0x20006500720061002000650063006e00610076006400610020006c006c0075006600200061002000680074006900770020006500720061007500710073002000;
0x2c00360032002b0055002d00300032002b00550020003a007300650067006e0061007200200067006e00690077006f006c006c006f0066002000650068007400;
0x380043002b0055002d00300041002b00550020002c00450037002b0055002d00310037002b00550020002c00460036002b0055002d00380032002b0055002000;
0x2c003300350031002b0055002d003200350031002b00550020002c003100330031002b00550020002c00460046002b0055002d00410043002b00550020002c00;
0x430032002b00550020002c003700430032002b0055002d003600430032002b00550020002c003200390031002b00550020002c003800370031002b0055002000;
0x2b00550020002c003500410033002b00550020002c003400390033002b00550020002c004400440032002b0055002d003800440032002b00550020002c003900;
0x33003100300032002b00550020002c003000430033002b00550020002c004300420033002b00550020002c003900410033002b00550020002c00370041003300;
0x55002d0043003100300032002b00550020002c0041003100300032002b0055002d0038003100300032002b00550020002c0034003100300032002b0055002d00;
0x2b00550020002c0036003200300032002b00550020002c0032003200300032002b0055002d0030003200300032002b00550020002c0045003100300032002b00;
0x32002b00550020002c0034003400300032002b00550020002c0041003300300032002b0055002d0039003300300032002b00550020002c003000330030003200;
0x32002b00550020002c0036003000320032002b00550020002c0032003000320032002b00550020002c0036003200310032002b00550020002c00320032003100;
0x3100320032002b0055002d0039003100320032002b00550020002c0032003100320032002b0055002d0031003100320032002b00550020002c00460030003200;
0x3600320032002b00550020002c0038003400320032002b00550020002c0042003200320032002b00550020002c0045003100320032002b00550020002c004100;
0x41004300350032002b00550020002c0032004600320032002b00550020002c0035003600320032002b0055002d0034003600320032002b00550020002c003000;
0x39003000450034002b00550020002c0033003000450034002b00550020002c0030003000450034002b00550020002c0037003000300033002b00550020002c00;
0x42003600310035002b00550020002c0034003900450034002b00550020002c0043003800450034002b00550020002c0044003500450034002b00550020002c00;
0x42004400360035002b00550020002c0037004400360035002b00550020002c0031003400330035002b00550020002c0044003600310035002b00550020002c00;
0x42003600300037002b00550020002c0034003300430036002b00550020002c0038003200370036002b00550020002c0046003100370035002b00550020002c00;
0x64006f006300200065006800540020002e0032003000300046002b0055002d0030003000300046002b00550020002c0031004400310039002b00550020002c00;
0x65006d006f00730020006f0074002000640065007000700061006d0020006500720061002000680063006900680077002000730074006e0069006f0070006500;
0x2000220020003a0067006e00690077006f006c006c006f006600200065006800740020006500720061002000650073006c006500200067006e00690068007400;
0x6e00610076006400610020006c006c007500660020007400750062002000680074006100700020006f004e0020003a002900300032002b005500280020002200;
0x6e0065006300730061002000300020007300610068002000680074006100500020003a002900300037002b0055002800200022007000220020003b0065006300;
0x20003a002900390043002b005500280020002200c900220020003b0074006e006500630073006500640020006c006c0075006600200074007500620020007400;
0x650063007300610020006c006c00750066002000740075006200200074006e006500630073006500640020003000200073006100680020006800740061005000;
0x4e0020003a002900300041002b0055002800200065006300610070007300200067006e0069006b0061006500720062002d006e006f004e0020003b0074006e00;
0x690077002d006f00720065005a0020003b00650063006e00610076006400610020006c006c007500660020007400750062002000680074006100700020006f00;
0x3a00290046004600450046002b0055002800200065006300610070007300200067006e0069006b0061006500720062002d006e006f006e002000680074006400;
0x6500630061007000730020006e00450020003b00650063006e00610076006400610020003000200064006e0061002000680074006100700020006f004e002000;
0x6100760064006100200066006c0061006800200064006e0061002000680074006100700020006f004e0020003a00290032003000300032002b00550028002000;
0x2000680074006100700020006f004e0020003a00290033003000300032002b005500280020006500630061007000730020006d00450020003b00650063006e00;
0x730020006d0065002d007200650070002d006500650072006800540020003b00650063006e00610076006400610020006c006c00750066002000740075006200;
0x7400200065006e006f00200064006e0061002000680074006100700020006f004e0020003a00290034003000300032002b005500280020006500630061007000;
0x20006500630061007000730020006d0065002d007200650070002d00720075006f00460020003b00650063006e00610076006400610020006400720069006800;
0x650074007200610075007100200065006e006f00200064006e0061002000680074006100700020006f004e0020003a00290035003000300032002b0055002800;
0x32002b005500280020006500630061007000730020006d0065002d007200650070002d0078006900530020003b00650063006e00610076006400610020007200;
0x6100760064006100200068007400780069007300200065006e006f00200064006e0061002000680074006100700020006f004e0020003a002900360030003000;
0x74006100700020006f004e0020003a00290039003000300032002b005500280020006500630061007000730020006e0069006800540020003b00650063006e00;
0x700073002000720069006100480020003b00650063006e006100760064006100200068007400660069006600200065006e006f00200064006e00610020006800;
0x65007400200065006e006f00200064006e0061002000680074006100700020006f004e0020003a00290041003000300032002b00550028002000650063006100;
0x5500280020006500630061007000730020006800740064006900770020006f00720065005a0020003b00650063006e0061007600640061002000680074006e00;
0x20003b00650063006e00610076006400610020006f006e00200064006e0061002000680074006100700020006f004e0020003a00290042003000300032002b00;
0x700020006f004e0020003a00290030003000300033002b0055002800200065006300610070007300200063006900680070006100720067006f00650064004900;
0x6800740064006900770020006f00720065005a0020003b00650063006e00610076006400610020006c006c007500660020007400750062002000680074006100;
0x6e0061002000680074006100700020006f004e0020003a00290043003000300032002b00550028002000720065006e0069006f006a002d006e006f006e002000;
0x2000720065006e0069006f006a0020006800740064006900770020006f00720065005a0020003b00650063006e00610076006400610020006f006e0020006400;
0x650063006e00610076006400610020006f006e00200064006e0061002000680074006100700020006f004e0020003a00290044003000300032002b0055002800;
0x410033002b005500280020006900680043002000720065007400740065006c0020006c0061007400690070006100630020006b00650065007200470020003b00;
0x6600200064006e006100200065007000690072007400730020006c00610074006e006f007a00690072006f00680020006e0069006800540020003a0029003700;
0x20006e0069006800540020003a00290041003200410036002b0055002800200022002a6a220020003b00650063006e00610076006400610020006c006c007500;
0x6e00610076006400610020006c006c0075006600200064006e006100200065007000690072007400730020006c00610074006e006f007a00690072006f006800;
0x610074006e006f007a00690072006f00680020006e0069006800540020003a00290042003600410036002b0055002800200022006b6a220020003b0065006300;
0x6b00650065007200470020003b00650063006e00610076006400610020006c006c0075006600200064006e006100200065007000690072007400730020006c00;
0x3a0029003500410033002b005500280020006e006f006c0069007300700055002000720065007400740065006c0020006c006100740069007000610063002000;
0x610020006c006c0075006600200064006e006100200065007000690072007400730020006c00610063006900740072006500760020006e006900680054002000;
0x6900740072006500760020006e0069006800540020003a00290035004200450037002b005500280020002200b57e220020003b00650063006e00610076006400;
0x267e2200200020003b00650063006e00610076006400610020006c006c0075006600200064006e006100200065007000690072007400730020006c0061006300;
0x65007000690072007400730020006c00610063006900740072006500760020006e0069006800540020003a00290036003200450037002b005500280020002200;
0x290031003300450037002b005500280020002200317e2200200020003b00650063006e00610076006400610020006c006c0075006600200064006e0061002000;
0x20006c006c0075006600200064006e006100200065007000690072007400730020006c00610063006900740072006500760020006e0069006800540020003a00;
0x2f003a007000740074006800670072006f002e006300330077002e007700770077002f002f003a0070007400740068002e00650063006e006100760064006100;
0x4900590050004f0043002f006d006500680061002f00730074006e006f0066002f005300530043002f00670072006f002e00330077002e007600650064002f00;
0x6f6974636964736972756a206e49202e6e69616d6f642063696c62757020656874206f742073676e6f6c656220746e6f66206d656841206568540a0047004e00;
0x2c73656c696620657365687420666f207069687372656e776f206e69616d6f642063696c62757020657a696e676f63657220746f6e206f64207461687420736e;
0x2f3a70747468203a7365696c707061206e6f69746172616c636564206f72655a20736e6f6d6d6f4320657669746165724320676e69776f6c6c6f662065687420;
0x684165646f636c6167656c2f73752f302e312f65766961772d6f72657a2f7365736e6563696c2f67726f2e736e6f6d6d6f6365766974616572632e7362616c2f;
0x67726f2e6333772e7777772f2f3a707474686d65684130352e31206e6f69737265566d6568416d6568412030352e31206e6f697372655672616c756765526d65;
0x20006500680054006d65684172616c756765526d6568410a474e4959504f432f6d6568612f73746e6f662f5353432f67726f2e33772e7665642f2f3a70747468;
0x2000630069006c00620075007000200065006800740020006f0074002000730067006e006f006c0065006200200074006e006f00660020006d00650068004100;
0x6f00640020007400610068007400200073006e006f006900740063006900640073006900720075006a0020006e00490020002e006e00690061006d006f006400;
0x6e0077006f0020006e00690061006d006f0064002000630069006c00620075007000200065007a0069006e0067006f00630065007200200074006f006e002000;
0x6f006c006c006f006600200065006800740020002c00730065006c0069006600200065007300650068007400200066006f002000700069006800730072006500;
0x61006c0063006500640020006f00720065005a00200073006e006f006d006d006f004300200065007600690074006100650072004300200067006e0069007700;
0x61006500720063002e007300620061006c002f002f003a00700074007400680020003a007300650069006c0070007000610020006e006f006900740061007200;
0x610077002d006f00720065007a002f007300650073006e006500630069006c002f00670072006f002e0073006e006f006d006d006f0063006500760069007400;
0x5600720061006c0075006700650052006d00650068004100650064006f0063006c006100670065006c002f00730075002f0030002e0031002f00650076006900;
0x300035002e00310020006e006f00690073007200650056006d006500680041006d006500680041002000300035002e00310020006e006f006900730072006500;
0x20006400650070006f006c0065007600650064002000730061007700200074006e006f00660020006d0065006800410020006500680054006d00650068004100;
0x780061004d0020002e0043002000730065006c0079004d00200064006e0061002000720065006e0072006800610046002000640064006f005400200079006200;
0x6c0065007600650064002000730072006500740069007200770020007400730065007400200070006c006500680020006f007400200064006c00650069006600;
0x20007300740069006e007500200065006800540020002e0073007400730065007400200065006c00620061007400630069006400650072007000200070006f00;
0x38002000730069002000650063006e006100760064006100200065006800740020002c00300030003000310020007300690020006d0065002000720065007000;
0x720065006800740020002c00300030003200200073006900200074006e00650063007300650064002000650068007400200064006e00610020002c0030003000;
0x79006c0074006300610078006500200065007200610075007100730020006d0065002000650068007400200067006e0069006b0061006d002000790062006500;
0x6100680063002000740073006f006d00200072006f006600200073006800700079006c006700200065006800540020002e006500720061007500710073002000;
0x69006600200068006300690068007700200078006f00620020006100200079006c0070006d006900730020007300690020007300720065007400630061007200;
0x2000730074006e0069006f007000650064006f006300200065006800540020002e0065007200610075007100730020007300690068007400200073006c006c00;
0x20006800740069007700200065007200610075007100730020006c006c00750066002000730069006800740020006f0074002000640065007000700061006d00;
0x67006e00690077006f006c006c006f006600200065006800740020006500720061002000650063006e00610076006400610020006c006c007500660020006100;
0x550020002c00460036002b0055002d00380032002b00550020002c00360032002b0055002d00300032002b00550020003a007300650067006e00610072002000;
0x20002c00460046002b0055002d00410043002b00550020002c00380043002b0055002d00300041002b00550020002c00450037002b0055002d00310037002b00;
0x3200390031002b00550020002c003800370031002b00550020002c003300350031002b0055002d003200350031002b00550020002c003100330031002b005500;
0x440032002b0055002d003800440032002b00550020002c003900430032002b00550020002c003700430032002b0055002d003600430032002b00550020002c00;
0x550020002c003900410033002b00550020002c003700410033002b00550020002c003500410033002b00550020002c003400390033002b00550020002c004400;
0x300032002b00550020002c0034003100300032002b0055002d0033003100300032002b00550020002c003000430033002b00550020002c004300420033002b00;
0x30003200300032002b00550020002c0045003100300032002b0055002d0043003100300032002b00550020002c0041003100300032002b0055002d0038003100;
0x2d0039003300300032002b00550020002c0030003300300032002b00550020002c0036003200300032002b00550020002c0032003200300032002b0055002d00;
0x20002c0036003200310032002b00550020002c0032003200310032002b00550020002c0034003400300032002b00550020002c0041003300300032002b005500;
0x55002d0031003100320032002b00550020002c0046003000320032002b00550020002c0036003000320032002b00550020002c0032003000320032002b005500;
0x2b00550020002c0045003100320032002b00550020002c0041003100320032002b0055002d0039003100320032002b00550020002c0032003100320032002b00;
0x32002b0055002d0034003600320032002b00550020002c0030003600320032002b00550020002c0038003400320032002b00550020002c004200320032003200;
0x34002b00550020002c0037003000300033002b00550020002c0041004300350032002b00550020002c0032004600320032002b00550020002c00350036003200;
0x34002b00550020002c0044003500450034002b00550020002c0039003000450034002b00550020002c0033003000450034002b00550020002c00300030004500;
0x35002b00550020002c0044003600310035002b00550020002c0042003600310035002b00550020002c0034003900450034002b00550020002c00430038004500;
0x36002b00550020002c0046003100370035002b00550020002c0042004400360035002b00550020002c0037004400360035002b00550020002c00310034003300;
0x46002b00550020002c0031004400310039002b00550020002c0042003600300037002b00550020002c0034003300430036002b00550020002c00380032003700;
0x680063006900680077002000730074006e0069006f007000650064006f006300200065006800540020002e0032003000300046002b0055002d00300030003000;
0x720061002000650073006c006500200067006e0069006800740065006d006f00730020006f0074002000640065007000700061006d0020006500720061002000;
0x20006f004e0020003a002900300032002b0055002800200022002000220020003a0067006e00690077006f006c006c006f006600200065006800740020006500;
0x300037002b0055002800200022007000220020003b00650063006e00610076006400610020006c006c0075006600200074007500620020006800740061007000;
0x6500640020006c006c00750066002000740075006200200074006e0065006300730061002000300020007300610068002000680074006100500020003a002900;
0x650064002000300020007300610068002000680074006100500020003a002900390043002b005500280020002200c900220020003b0074006e00650063007300;
0x6b0061006500720062002d006e006f004e0020003b0074006e00650063007300610020006c006c00750066002000740075006200200074006e00650063007300;
0x7500660020007400750062002000680074006100700020006f004e0020003a002900300041002b0055002800200065006300610070007300200067006e006900;
0x6b0061006500720062002d006e006f006e002000680074006400690077002d006f00720065005a0020003b00650063006e00610076006400610020006c006c00;
0x200064006e0061002000680074006100700020006f004e0020003a00290046004600450046002b0055002800200065006300610070007300200067006e006900;
0x6f004e0020003a00290032003000300032002b005500280020006500630061007000730020006e00450020003b00650063006e00610076006400610020003000;
0x6500630061007000730020006d00450020003b00650063006e006100760064006100200066006c0061006800200064006e006100200068007400610070002000;
0x610076006400610020006c006c007500660020007400750062002000680074006100700020006f004e0020003a00290033003000300032002b00550028002000;
0x290034003000300032002b005500280020006500630061007000730020006d0065002d007200650070002d006500650072006800540020003b00650063006e00;
0x3b00650063006e006100760064006100200064007200690068007400200065006e006f00200064006e0061002000680074006100700020006f004e0020003a00;
0x20006f004e0020003a00290035003000300032002b005500280020006500630061007000730020006d0065002d007200650070002d00720075006f0046002000;
0x6900530020003b00650063006e00610076006400610020007200650074007200610075007100200065006e006f00200064006e00610020006800740061007000;
0x680074006100700020006f004e0020003a00290036003000300032002b005500280020006500630061007000730020006d0065002d007200650070002d007800;
0x61007000730020006e0069006800540020003b00650063006e006100760064006100200068007400780069007300200065006e006f00200064006e0061002000;
0x660069006600200065006e006f00200064006e0061002000680074006100700020006f004e0020003a00290039003000300032002b0055002800200065006300;
0x3a00290041003000300032002b00550028002000650063006100700073002000720069006100480020003b00650063006e006100760064006100200068007400;
0x20003b00650063006e0061007600640061002000680074006e0065007400200065006e006f00200064006e0061002000680074006100700020006f004e002000;
0x6100700020006f004e0020003a00290042003000300032002b005500280020006500630061007000730020006800740064006900770020006f00720065005a00;
0x7300200063006900680070006100720067006f0065006400490020003b00650063006e00610076006400610020006f006e00200064006e006100200068007400;
0x20006c006c007500660020007400750062002000680074006100700020006f004e0020003a00290030003000300033002b005500280020006500630061007000;
0x28002000720065006e0069006f006a002d006e006f006e0020006800740064006900770020006f00720065005a0020003b00650063006e006100760064006100;
0x3b00650063006e00610076006400610020006f006e00200064006e0061002000680074006100700020006f004e0020003a00290043003000300032002b005500;
0x20006f004e0020003a00290044003000300032002b00550028002000720065006e0069006f006a0020006800740064006900770020006f00720065005a002000;
0x7400690070006100630020006b00650065007200470020003b00650063006e00610076006400610020006f006e00200064006e00610020006800740061007000;
0x690072006f00680020006e0069006800540020003a0029003700410033002b005500280020006900680043002000720065007400740065006c0020006c006100;
0x20003b00650063006e00610076006400610020006c006c0075006600200064006e006100200065007000690072007400730020006c00610074006e006f007a00;
0x7400730020006c00610074006e006f007a00690072006f00680020006e0069006800540020003a00290041003200410036002b0055002800200022002a6a2200;
0x410036002b0055002800200022006b6a220020003b00650063006e00610076006400610020006c006c0075006600200064006e00610020006500700069007200;
0x200064006e006100200065007000690072007400730020006c00610074006e006f007a00690072006f00680020006e0069006800540020003a00290042003600;
0x7400740065006c0020006c0061007400690070006100630020006b00650065007200470020003b00650063006e00610076006400610020006c006c0075006600;
0x610063006900740072006500760020006e0069006800540020003a0029003500410033002b005500280020006e006f006c006900730070005500200072006500;
0x280020002200b57e220020003b00650063006e00610076006400610020006c006c0075006600200064006e006100200065007000690072007400730020006c00;
0x6e006100200065007000690072007400730020006c00610063006900740072006500760020006e0069006800540020003a00290035004200450037002b005500;
0x540020003a00290036003200450037002b005500280020002200267e2200200020003b00650063006e00610076006400610020006c006c007500660020006400;
0x76006400610020006c006c0075006600200064006e006100200065007000690072007400730020006c00610063006900740072006500760020006e0069006800;
0x63006900740072006500760020006e0069006800540020003a00290031003300450037002b005500280020002200317e2200200020003b00650063006e006100;
0x3a0070007400740068002e00650063006e00610076006400610020006c006c0075006600200064006e006100200065007000690072007400730020006c006100;
0x43002f00670072006f002e00330077002e007600650064002f002f003a007000740074006800670072006f002e006300330077002e007700770077002f002f00;
0x61006c0075006700650052006d006500680041000a0047004e004900590050004f0043002f006d006500680061002f00730074006e006f0066002f0053005300;
0x800070006000500040003000301020100001901000000000000000000000000000000000000000014007bff000000000000020000006d006500680041007200;
0x29002800270026002500240023002200210020001f001e001d001c001b001a0019001800170016001500140013001200110010000f000e000d000c000b000900;
0x49004800470046004500440043004200410040003f003e003d003c003b003a0039003800370036003500340033003200310030002f002e002d002c002b002a00;
0x69006800670066006500640063006200610060005f005e005d005c005b005a0059005800570056005500540053005200510050004f004e004d004c004b004a00;
0x8b008a00890088008600850084008300810080007f007e007d007c007b007a0079007800770076007500740073007200710070006f006e006d006c006b006a00;
0xcc00cb00ca00c900c800c700c300bd00ba00b800b700b600af00ae00ad00ac00aa00a900a400a300a200a100a0009e009d00970096009300910090008e008d00;
0xf300f200f100f000ef00ee00ed00ec00eb00ea00e900e800e100e000df00de00dd00dc00db00da00d900d800d700d600d500d400d300d100d000cf00ce00cd00;
0x9200a50099009a0098008c00bc00bf00be00c600ab008700c2008200c500b500b400c400b300b2009b009f00a800a600bb00b100b00005010401f600f500f400;
0x1b011a0119011801170116011501140113011201110110010f010e010d010c010b010a0109010801070102000601c100c000d200b900a700950094008f009c00;
0x3530326870796c67083430326870796c67083334326870796c67084c4c554e042b012a0129012801270126012501240123012201210120011f011e011d011c01;
0x739303032696e750736303032696e750735303032696e750734303032696e750733303032696e750732303032696e750746464546696e75074c454403544802;
0x304534696e750743384534696e750730304534696e750731303369696661073436363136696966610930303033696e750742303032696e750741303032696e75;
0x303033696e750731343335696e750744354534696e750742363135696e750733304534696e750744363135696e750734394534696e750742443635696e750739;
0x324136696e750737413330696e750746313735696e750731443139696e750738323736696e750734334336696e750742363037696e750737443635696e750737;
0x31334537696e750736324537696e750735424537696e750735413330696e750742364136696e750741].
(** tests/pdf.rs:12: the 64844 bytes of tests/fonts/noto/NotoSansLinearB-Regular.ttf *)
Definition noto_ttf : bytes := unpack 64844 [
0x64616568a8da00000409000043aa2c6566796c6714010000cc050000ff11770170616d63600000002801000046614169322f534f2000030080000a0000000100;
0x7078616d24020000e0060000293aad0361636f6c440400008801000099610a7d78746d6824000000e40000006e07990b6165686836000000ac000000d3950711;
0xe8030300f53c0f5fc7929a4000000200000001002c13000020ea00006181e6a974736f7074060000ace3000038c1149a656d616e20000000080100005d014501;
0x10062070b00080076070000dbfe2d0400000100000000000000020006000000fc03620780ff0800f343e7d500000000810d9ed400000000;
0x58028a024b00000058028a02000005009001490304000000000000000000000000000000000001000000000033005c011101000001001101000000000000;
0x1802000000000000000025012d040000dbfe2d04ffff00004001474f4f472000000000000000000000020300000004020204050402050b020000420132005e01;
0x580028026300b50258000d036f00f401630024026f00c802370076024200c6026300b502000004010000040100000401000000005e0058020000200000002003;
0x58004d02580020032c005e025800810242002f036200ed024d00d302420082023700db0258000d03420039032c00d6034d0072024200ea026f009d024d00c002;
0x4d005f022c0048026f0074024200370221001603420039032c0053021600eb02420058024200c6026f0001024200fb016f009d026300590337008a024200c902;
0x420041023700a30242003c026f009d024200da024200fb014200c60258009e0263006c026f005d0242003e024200c1026f0082025200ac023700cc024200fb01;
0x6f0020025800f0024200da027a00ee02210082026f00cf023700f2024d001e034200ec034200f302420004032c006002210018032c0096026f008d0237003302;
0x4d005f02210004036f00b6034200010337008a020b0067036f009b036f007b036f00bf026100c3036500240337003002210019034d005f023700330221000903;
0x50000c0332004e022300d0023700fa023700fa024200fa024c000d03210023032100230321001603210016034200e104420066044d00d1043b0027044d005f02;
0x3200fa04320065036e00ee026e00620350007a035000c5026e003f022800f902320056022c00a0026f0009033200030350001a02320020026e0008023200f302;
0x6e00820550009f053200b404320011056e0007030800b403500035033200bd036e0098036e0007035000e00432001203320020023200a9033200bd0232005103;
0x50000a056e008b045000b2025000b4046e00c4026e006d026e002b045000c4045000ac033200de03500031056400930232000404500062025000d8026e004a06;
0x5000e80342003903320076075000700750007007500038026e009f01500038023200510432004d033200190732007f0532001b0550002303500016036e009803;
0x3200d7033200af04320007056e001d0464003c046e005f04320062066e00ce03320047056400c403320041045000060450009204500038026e00ee026e003304;
0x5000af02320057023200cb033200aa0432001b0432009703320051054d00ce033200bf0232004d033200000332000b03320083023200b7022c00aa0342000803;
0xff0084034f0184039f0184030f000c029600c001960072013200ef03320064043200410332009c0350005805500068056e00c30332006f056e00bb0332008904;
0x184034d0084036500840365008403650084036500840365008403270184032701840327018403ff008403af008403af008403ff008403ff0084034f018403;
0xae008403ae0084037e0084037e0084037e0084030e0184037e0084036400840379008403f1008403f1008403ce008403ce008403ce0084035a018403ce008403;
0x64003a0264003a026400460264006603640098016400500336008403ae008403ae0084037e0084037e0084037e0084030e0184037e0084036400840336008403;
0x200020008000a000000380004005c0000000a00030024000000010003005c0000000400000024000000030000000400000064001604640025026400b202;
0xe00000000000000b800000000000c0000000000000000000000010064ffe3fff5ff0100ffffa00020000d0000000000ffffa00020000d00;
0x11000000260001000d000100050000000b0001000000010004000000a0000000a0000000030000002000000020000000020000000d0000000d00000001000000;
0x101005d000000fa000100800001004f0000005d00010050000100400000004d0001003f0001003e0000003d0001003c0001002b0000003a00010028000100;
0xde0263021802f001490137010b01c50073003000150015001500150015000000080100003f01010037010100db0000003301010007010100d800000002010100;
0x500c390cce0b940b690b440b0c0bbc0a5a0aef09d709940953093509f4087d0809089d0768073007e506a3062c06a2054505ef0490040104bc03890353030103;
0xdf157f154a15da146814e41386134f13cf126312da115211e1108d1054102010e10f970f5e0f190fde0ec10e500e360e060ed60d9d0d810d4a0d0b0de70c990c;
0x8d234923d022b12270222922d4215321c32082202c20e51f8c1f931e9c1d731c8a1b2d1bed1aab1a7c1a271aae194e19c61870184d18d9174017ec16b9165116;
0xf1303c301530732f162f992e3b2e6f2ddb2c732c492c2c2cc52b312bbf2a4b2acf295729a6286128fe278b27192799267d260f26be251725dd248824ff23b823;
0xe93cd53c603cbe3b873b703a3639fa38d9389d3843381f38ef3761372037cb365936ec358e35dc34a2343934f033ac335d331d33f132a2322532ec318d316731;
0xdd4a884a384afd499a490e49e4487148d04710479a464846cb453f45da447144b84352437b421e42bf418141d440a2405c4032400d40853f9a3ebb3d803d2e3d;
0x8c5240520e52d051905158512651fc50d950be50aa509c5063502950f54fc84fa24f824f684f544f474f2d4f174f0b4f564ecc4d834d4c4dbc4c084cba4b334b;
0xe66cca6cb66c806c0f6ce46b866b4f6b6f69c5673a66dc64ac63bc62066284613561895f0c5ea75c6c5b575a7f59d95863581958f756f75516553e548c53fa52;
0x2335230100000f00200352020000630001000064023336fdca02cbfe35013365fe9b015e2111213721112113000007000300ca02f90100005e000200546d0a6d;
0x33363633352337023e3300002a0023001c002a03840200004200030000c0c0d601d72102dffdd74a0146630146468e468f465202333521153311231523112311;
0xce17361ada041c13b3fe141c05470419271b223922573330552338221a291b04422726210706060726263307062213070606212726262317021e231533171632;
0x607173737023e01000036002a033f02000037000100303b1c3619c3483c3c48e40256c45d5ec35650bebf543f597171593f53bcbe54100e3001070f07953617;
0x3409101a0d030a12136c4142121f1603720107061415333535262633171616173727272626371716323523230606373411231115162726222315333636170706;
0xfc2c24110302013f0101263e1201eefe3e2601013f01020311242cfc1aa72c544211b00101024602011806291a42416c13120a030d1a1009353b0a0346030b3b;
0x11250706062223263435023e270706061415163233023e0511211133041e320100002d0022000a002003700200006f00030000123f20ffff223c13217141a71a;
0x3017210f78200315fe2d464f462d2003161c1a20324e3a6801f3fe091e22100e13171c0927102319332215302d0f2b010ffe42553422202b24040123052e1121;
0x220317231533172726071716323336341123112327010000190013002503e201000063000200263d4744340a76015efd62091a15140d10211b09240f2b2f1524;
0x7002003b20100006f000100004d56225901553fc101053e0704839909021efe5e84019a011e372a700c555d1a141a0b20451c5b6546a20d580133070606;
0x17372737270707140727262627230707060623272626270100006d0057003a003503b502f7ff58000300b4fe20036bfe9501fd4646fdb2013311331123112301;
0x373636130706060706232726262726260717161607060615213527262637363601070706062735262627071707173737023e3317021e17333737023e3317021e;
0x310b140f0204031216082a342907130f01040313190a313e13283e09090304120c2a3e300b11030402150b2ed801171616171616152726222323060635373636;
0x75e7010514120f270d0620136e1320060c2710151105b72240202908040417141f4322412f5e38264a208201204a26385f2e7bfe2a0c1404030304093e28133e;
0x46163f3f16462335704f30fe5f1b310e010f2c1f3f0bd82a1f6d1740380d0e3a3f166f70143f3a0f0e393e176d1f2ad80b3f3d1d010e301c61791c441515451d;
0x230121352101000013000f000b0007000300200352020000630005000a18100e210306010202010603210d13170931013e57212a150d1e1622543e204f703523;
0x1a002a03e60100005800020000630158fd0e01f2fe0e01f2fe0e017afe3fe102464646468f46a901464657feef0111fe52023311231133112303112311213311;
0x272d291b1f2d2d1f461f2e2e1f2637340d3a0117161415020e141516163727263435023e3435022e1337033e3435032e3411231115031e1415030e0100003300;
0x2f0b3c0416140c1a1e261715211402abfe1d2a21222a1f212a1f1f282086017afe2937261e1f141b2422302715032b2c1821183c4b102c29192019173d39df0a;
0x3435363634352626071716141506061415162327263435032e0717021e1415162317161415060601000058002b037e02f6ff4d00010000040d0f0e181b221826;
0x5705050916241b401821160a064807050804670237363435262621070614151616372726343536362327263435023e343526260717161415020e141516232726;
0x4673696c3f1f3d6664734b222528451c2e3711200303070104820105030a0546040c0607440505131913151a3c190e131a1306590505100f131a401810100f06;
0xf362715301a1a2e152934110b0d3e321b4225192f162c524e4d272246251f243a29264a4d532e2225192f162f65632a2654321f3051252a5e64332225192f16;
0x11ffe81c02003e0fc2003cafe3601cafe3601cafe36014341fe2e021521350121112111213521171121110100000f000b000700030020032e0200006f000400;
0x17372701370327022e3736361327030706062726260307131716160706060317133736361716160100002c00280024003303a802f6ff420003000082821efe21;
0xfe2416012c230102262e2302293e299afd293e29d8013bb41217120b0e211ead3baf1f140101141ab53bb21c24090d2218b43bb41d120101141e420107173721;
0x16323336361521010000230020033b0200004d00010000dd0cdede0cdd5bfe2416011b221810132e2e0b0124f1fe2f2601022627160124effe2b320c132d25ea;
0x41243946120e64da02ee01300e3825201e222e22302b52212e18222e2241401b2f0e58fe3b0221112707062223263435023e34352626231716161415020e1415;
0x112311231123112311231123112311331533352115151632333636130000220025037e0300002c00010002010d1f242a1a223737442e3890462f685e21223d3d;
0x420005000406153b375f0275fe8b0175fe8b0175fe8b0136fe8989956f5707041a0312281c1d2512467f468a438243c5434f0147521c30162c07062223262634;
0x36365f7d48487e5f36423517021e212337023e133307020e271527022e25022e2223020e1415021e3233023e341300002b0025001f0019001300e702f7023300;
0x6c4607c7fe3f694608f6f607456a40697d5f36365f7d48487d5f36365f7d488d0140684207cffef507446a4040f00842673f40406945076d02365f7e48487d5f;
0x23e3317021e17333737023e3317021e17372737270707140727262627230707060623272626270100005e005a003a003503b502f6ff58000300f908466c3f41;
0x2a3e300b11030402150b2ed801333523013523230606273736362707060706062327262627260717161607272622231517070706062735262627071707173737;
0x50c0304040c043e3a41244c2e010e3a20555b2a0c1404030304093e28133e310b140f0204031216082a342907130f01040313190a313e13283e09090304120c;
0x2c1f3f0bd82a1f6d1740380d0e3a3f166f70143f3a0f0e393e176d1f2ad80b3f3d1d010e301c61791c441515451d75e70146461801621e3c08022b4e2443353d;
0x3303152107060617370100003e003200250029038e020000370003009a37fe3f08010356c26d15af8c0d2e17172f0a8db01569c2570301053f1e5f1b310e010f;
0xfe5f9357010e3b23315f130115021e13231337363634132634353632331616141506222707061415161632333634352626222306062737270706060333352115;
0x1c08070372312d410bec013f3f1efe3f0a2823326d7a0205080768fb67070805fc21140e12251a1b106a03051a3223353d27381c10180d037c322c2a08955fda;
0x32e27032e2223030e07020e140100003c001e002a034002f6ff420002000c2f35169bfe660116352e0c50fd341c0f140f201a1218690b1e0a1e37243e322133;
0xccfe2e4b592b2b5a4d2f1f2e3213060d0f161e151a20131009153531204002271716141506062223262634353636073337033e3233041e25021e3233023e3435;
0xaee4874114144187e4ae164f371c1c374f322a422f1b036f975e31121e56a689041c30432a560207232838562d2d54362f22093f060a09090b07070d0b090803;
0x27022e373632331614150622173336343526262223020e37023e2707020e23062201000042003e002e037b02f6ff4d000200c90b4a2c3242212142322e480bc9;
0x501b455b2f024453211b26281902374c22351e2039412c063654352340653e0609140af6013523151726343536363435231515020e1415163233363217021e37;
0x1a25250e13121c182b2d01559d75183c1761864c0a1f171f1c1a3b3d342632180e1306477e5f1a381d789950017501402d251c1c401218124d350b150a033b6d;
0x3435023e173233363627232634353636270706141516160706061415021e07173737023e343315031e01000061002b038b020000620001009999dc0f170f161f;
0xf3e50212916070408152a210e0137273736363435022e3736343526260717161415062207171632333617161614150606070614230311231103233526262726;
0x23e0d0b130d121809121740380d1f252822090a12040c0e05100d04040204049f469804060204050d11040c0d04120a081f2b241f0d364218120919120d140a;
0x64371d4021112c133601790185fed6fe13310e193c1d37664c11030201331518161c043c093e2e18250c1d5b6630295f5f281c1fa14354311c0c0c1c3253438a;
0x162311231115060622232634353636343526260100004f004600250303030000420002001f192b605f2830675a1d0d25172e3e093c041c16181533010203124d;
0x1931263c0223262633171716160127072306063727070706061737363607173737363207173717161415020e1415163233363633171632333636270703071716;
0x37b120405068afe380608180810380810240d130814080f36090f0f0a113608111410161038372f4006040a46492451200b2d3244040707734610251d131a18;
0x1013f0a50040a05380408023b084c020147084c031910141e1d21162b2e4d3c3c4d06083b065e0109172519e201f7fd5361290d1213212b22223a0ae0013a3e;
0x37363435022e343536361337363617070614111516163727263411230107061415021e1415060601000029002a035502000058000100596c7a1c1b1446010a47;
0x24351a01196b4967fe432e054404161ab10242fe2d3b1b141c17160f152214f80228201419141f18cb191c0a030505393c08221545c0fe2021141914161c4602;
0x21e0723020e1737023e071415031e372726263435361737273736323316163727262213000031002503270200002c0001000020342a1a2219150c0d2b221d01;
0xf56364f140e26112f1e24d60141162e1c460a2427031f303a2c252d3d2c15062031371718183928038b1f900c2a171f3510251a4828b6060627263411231115;
0x262622112311213533352301000025001b002a03de0200005800020000211a1d64533d01c3fe37604611040b22243c212a17061516273a2818053b041c2c1c12;
0x44232102dffd993f49011c0f101b2036dffd3e62a8010120351f31382b452746fffe3cc0ba020622232634353316140133112315333521151516163233363435;
0x372737363435231515161607173737363603213521152135210100001e00070003002003f50100005800030000172c4020262b2901a7fe3fc020484919413130;
0x1000008242a125a1fe40c2117d5d816200ce41f5a1d400cbbfe3fc03fe102010e13092f3e7a0101460101773e2e0f1a02d09d0163fe9d0163fef50117021e17;
0x3523353526263736323316141506061415161637232634353636343526222306062737363634112311151616072726222306140100004e002903870200004200;
0x35020213302429221617393c08261415154e3c20361003010301460401031232223c517702161614150622173736343526263435363233161607061415231533;
0x3f541121120c112117121e241d2926053a0f0d111a262131411317021116201fb1014ffe30290c0216134131610215151525083c3c15162229252e12020233ae;
0x26262707170717373736361716161737272726263736363737363601000048002b035302000037000100261a110d0f3a0526291d241e121721110c1f180d543f;
0x5070f0c273225171c0804130e141318024601171616171716160706060717373736341716161737273727070706062726262737363411231115160707060627;
0x243722210707211c2624340bb801021611151013030c1b152432270e1301080d1f414a6133271111010115154601014603451812010111122633614a411b0b09;
0x300000b3721281e1f050d201f35243c162202021e193e1f87812636162902023028840c21163401c9fe291a812c2d01032619352681871f3c19190b0e1b133c;
0x361703331333033313331333033313330323230606222737363637023e2307030e27032e2317021e1716072326262201000050004c00330020032d0300006300;
0x3f5b132e260501101c120f241f0a4708181c1f0f0f21201b0948092127111b1e01052632151502333523070706061415021e141506061737363435022e343536;
0x304051a1e194d4e1b1841433a1210394442191a4f511d2c090403020b017878db393d17192019292c104b3c1821182c2b26404a32441848134113491844314a;
0x290018000700030020032e0200006f0004003fab0214211519261d17090f1005370b252619221a150c0f0d0429ebfddb0125fedb0125fedb0125fe150202;
0x2019192015150844011b3426263a20214343cafe462e023526262223020e33353636323316141515062223262634231716163233363634133311230111231101;
0x23112301000013002003b9010000420001001d3c28253c200e1f162a1958192a161f0e203c25283c1dc0fe2003e0fc2003e0fc2003203a2626341b0144081515;
0x3711270717250000270020002a039e01f5ff6f00020000893fe8e83f893f3101cffe310199999946989898984699b90133152315331533353335233533352311;
0x2d2b3c0a283308030405275036304e2f0504030833286329e94646e92975013636152726341337363617070614150706061415021e1515161607272626270717;
0x3335232100002d0026002a038402000042000200003504bf032f290d011a2708030d46362404274833334424023436450e0307281a403b8f24ed02248f3bbf3a;
0x2a1b273922573330552338271b2b1d0446041b2719554ce1d1012626330706220333112327022e2317021e23153317163233363633352337023e2307020e2311;
0xd002003000200004200010000483c3c48a5021efe4ebdc15550bebf543f597171593f55bcbc5456c2bc4de2013f3817d217381a6f4f5a19281b0547041b;
0x161607020e2735262627022e3335232100004d002503a9020000160001005c3f6488014ae201320188fe78014646ec46ba012115211521153311231523112321;
0x302040b202613189aa9023317021e0706061415161632333636270706222326263435023e37043e33352315330706060706062737363435032e333523153317;
0x1b2714367b79313f361b33280d263c24173f3d193e1e1116301e20210c1c3f342f5f57462e052d9a2808412f061307020302070c0e081d9a34191d070b2a290a;
0x270200002c00040040a0a34711283a291e3b270c0c3c080b151d0d1d272015132f466895683f3f7f9c2e061105030e1e0b14495656223f3f5ac06a0612120603;
0x141506223734070622232634353632331614372622272626373634112311151616070606230614151616171632333636373634130000420037002c0020002a03;
0x70d232d43010605202f30200c39271f202626201f27b74d4e0a2811020246020312280a4d4f4f4f0d3a1919380e504e2c363207061415162326342526263316;
0x420006001f0d1f14261a1d22141f0e1f22231c1729293737292937372930380f180513220dbd0142fe0f201205180f3830313801131a1a1301383193022e2105;
0x333523033335231733352337020e2223022e3435023e3233021e1437022e2223020e1415021e3233023e34130000370033002f002b0027001300e702f7023300;
0x365f7d48487d5f36365f7d488d017676f07676f07676f07676d82b4c653939644c2b2b4c643939654c2b46365f7e48487d5f36365f7d48487e5f364233352317;
0xe2223262627071717163233023e3233161614130000240020001d03be020000210002003f3f3ff9fe3f3f3f0d664d2d2d4d663939664d2d2d4d6639487d5f36;
0x1e1814192c2f33191d181e18143732de024646c59d023e1a2d381e1f3c37301418291c312e3d1e3b261b31323922172716a5331123031521352335022e222302;
0x4332ae0501374334aef0333523112311230733153335333523053315333533352313000017000f0007002003f501000042000300002c0222fd3f3f3e4b260d18;
0x7062223263435363627070614151632333636252111331121210000190005002003530200006f000200003fb5014bfeabc0c03f3fc0c03f2102eb5246536439;
0x23e070614010000260020031c0200002c0001001e17140d11251c281d4327242b231fd61ffd20031e25110e131b1c2c1d2a2e22224620affea101431cfe5302;
0x570b112f2160024603022b39210e461532533e02024602023b533418461c423702034601333535262617021e143335032e37363411231115161607020e143335;
0x35022e371716323335232306062737023e3300004d002703120200004d00010000c021311008365161323f79633f070b1a11890174fe10180b074063783f427d;
0xd0215272815950706222326262317021e0727262223153333363617070606141516163233362707062223262634353632331614150622232607171632333634;
0x63b78e1c2c0e0b29224519272515030c40235154263b0902122619183c371f2a0b0a201323230b25121223171e0d0e08071507333d192512020b3324605e1c38;
0x2003b90100004200010000c7b7b6c88eb662120502063f0d03050b2e462e24432a09370205212d1445412c2a1426033302033b341a2f210605020b3f06020510;
0x2306062737363411231115161601000031002a03950200003700010000b4fe4c013f95016bfe9501994698984699b90133113311333523112311230100000b00;
0x341b491d0a1d491a3430101f34271a5540233d160402024602028401272622230614151616372726343536323316163337363233161415060617373634352622;
0x2b035e020000520001001c205650224a2c272932162c3832303131382c163229273541225056221b030a3016d6012afe153208250212412540551b26341f102f;
0x2827390933403d120f3c43380a8a27262613270707061415160727262627263411231115060607060627373435262627071307061737033e17031e1300003100;
0x363201cffe367d3c1d270b020a130a271e7d0ff7fe382c2b0b436378403d7764450c2b03132814403d1d070302050213102028462820101302050203071d3d40;
0x464675fe40023335230533352317333523272115331123112101000013000f000b0007002003400200006f00040015341c09010f7d1e270a130a020b271d3c7c;
0x3311331133071737033e2707020e2335333523352315232500002b0020037f02f6ff4200010000c0c0c0c0c03fff20031efee2014646fcfe4646824646828b01;
0x96350a1c7fa95bc53f91919149680e1e1805460b1f201b083f040a055e4667133f081b201e0c4406181e0f7148484649d10133152327022e0717031e37272626;
0x152315330727022e3435033e3411231115030e1415041e01000026001a002a03f101000042000200c55ba97f1c0a3597acaa480b224623b4fe4c018c084aaaa9;
0x3e2a33232118141e1d25372986017afe20291f1f2b212331242122162a03464675757575820e3537261f2d2c1f461f2d2d1f1c2b2e25084f0133112315231533;
0x1008160023f1efe41c0fe2003f3fe0d01466afe5001f3fe4396016f213521132115211121352311211300000d0009002003050200006f0002008601483f753f;
0x603430b0b0b0b43030502ebfe0c431afa0127210706141516162137270717372117161637272634353636270706062127071725000021002a031402f5ff6300;
0xb00070003002003460200005800070000503e7e3e3a70375307fe076c1c371a0a5ac36666d0670a1b371c6f07fefa080b0104040304f6fe08431a430b150102;
0x915d019191a3fe91915d019191a3fe91915d01919189464672013335230533352305333523053335230533352305333523073311232100001b00170013000f00;
0x313e4a2a27463d33261904423311233707040e2223052e2317041e3233053e33000021001d002a038402000042000200003f3f3fd53f3f3fd53f3f3fff200391;
0x230100000f002003b901000042000100bc01644ba7a6957443447496a6a64a4db2b6a6834c4a7fa4b5b6524646fa041520292e31191a312e2820160447041724;
0x40e1415163233363601000052004100300025039802000042000300813f3f813f2102dffd2102999977019898984699b9013315231521352335333523112311;
0x89010622232634353526263317031e1405263435043e33070614151506223707061415060622232626071716323336343526263717163233363435042e342315;
0x25323a300502040a2d3833225bfe252234372e0a040105323a7604060a1e1d0d22220b2028144a410604040e372b4e4f283e473e2831283e463e284f4e2a3513;
0x15192d313a4b31864d39314b3a312d19144a1cc53143050a2619363a1604063e07045e671c230a021c2a6b58405b42332f352424373034415a3e586b281e1502;
0x816002dffd2102dffd2102e0fc2003b1fe4f0181468843d8016f2135211111231123112311231121113300000f000b002003470200006f0002004d4331c51c49;
0x59380e3d1a4c3b413d33505a50334226222306061737363233161415040e141516163233023e2707062223263435043e3437000029002a03fa01f6ff42000100;
0x2c036102f6ff3700020061726018624941482e453a384254393253333a572d134b47493030493b38405137be6f605175233e225531404c33505a50332b57443d;
0x50b090d242c1d4236401c011b3b1f430233352311333521153311230337023e342315020e0706062737363435262627022e0717021e0706060100002c002000;
0x3f03013f3ffdfe16fe5cb5bfda827eceb35504120d02102621175a2c428e85361a6ee8db59162d17f402b23a60fefe6238867cb7783a4b357058040f0b040b;
0x18172f2e0e2715139d0123132315333523132303232727263435363227230614151616070614151632372334353632010000250019002a031502000042000200;
0x320024002703fc01000037000200a0fd3f3f6002a0fd05011f11111c3f3f251c320a14301722333f2d141a90024b6c31fe306b48621f921c19191b0e35341e1d;
0x460d3d2351541f3c0f3e012626343536323316141506062203070614151616323336363435262637171632333523230606112311272622231533333636010000;
0x44142e2001010d594324432a2d44234154100302073f0702be0143fe02063f0703ea0116072012122007151523242c193227332f0e2b2502113c15605e213a08;
0x33352325361527263405333523113333161614150706061415021e15331135022e22232100002900250021001b00170020032a0200006f000500212d14454445;
0x3d0cc5052e2bb73f20021b48415e05264734354222049c3d024e5c2c0db9b9b9b92101572631dffeb9b9f336391628492e2b482c431b35492ff32a0233352315;
0x36951718070402078686468dfb01331515161623272626270701330127070706062337363435333523112311230100001f002e036a0200002c000100003fd53f;
0x230100002500160007002003f70200002100030000aa517b15163e22d02788fe780127d2213e15137d51aa3f0b01f5fe0b018d080304061b1894360b01280b01;
0x1440a1b18251d7bfe4742423e01440a1b18251d49da01cb46c97d02352622230606333536363233161421352622230606333536363233161407213523112311;
0x16231521331614150614151616130000350031002d00290027030802f6ff2c0004004f5a52571832213f2c4f5a52571832213f2c803fe1021ffde1024742423e;
0x465608040135020407584556080c038331012b2c0a12087033352305333523173335230527263435363435262622373636132703070606232726260307131716;
0xb8162a1a1432103839150d261c92010b65fe23270710252097010b73fe2625093f1731132e1620351227034646fcfe46468246465a010a0e0a28462d050b0655;
0x1706222326261716140127262223060607030e37363233031e171716163233363435022e1123110100004b002b0022002a03d802000042000300008484848484;
0x9dfe142215192c0f101510120c24281a1230343112a4012143331f1c25402846150137272726222306061716162727022e272622373636333732331616171527;
0xa1d3c350201141b160210474d1e201f3745250842029efe62012e020313140b2219131405152438351f071a06040d062b07210a1e12cb6bfd0b071b1e012527;
0x3435363634370000650061004c002a03b102000042000300000c0d1220131706100b02041e1e050103121f0b1a030113980ab4082b3e0c272086010202182503;
0x6352315272622230614151616141506221737363435262634353632331616150706061415021e3233023e3435022e3537363233161415060614151616372326;
0x170f140d2812233f292e4b592b2b5a4d2f263e23142b0d13101211413408241b0d0e661523351333351716141506062223262634353636153311333726222306;
0x1c1c374f322c48310bf60e0a0d080d202a1a2d27053a0f0d111a2621af6a6a411b2638562d2d5436291c416ae63622122b10ec0d2a11233513121b2408403516;
0xaa030000420006005151a1fdbc0b442532422121423227430ec0d40141240d0b7d7a0b0a242621261a110d0f3a052b291a2a200d080d0a0bf60c32472e324f37;
0x32272306141516160706141516323723343536322717161415062217333636343526263736343526220733141506220100005c00500044003c0034001a002903;
0x1111dd181515170c1e27141919161228270c211111640207020e2327022e03330107020e2327022e033301333523132113230533352313211323072726343536;
0x362611166e02040a09020402080b0438a7e301040a09020402080b0438a711fdfe476eb4fe6f481c02fe476eb4fe6f4820171115170c2d2c1419141428270c21;
0x92fe1a4b471312484c196e01a0fd3f6002a0fd3f3f6002a0fd10011a0e0f17363520182a0d1128141c313b26111602011a0e0f173b1b2a15182b080c31141d2b;
0x60623272626272626342315021e171616070606070622231533273315332733073335373736360100004b002003d10200004d0001001a4b471312484c196e01;
0x27174d23381f09160d1626120b1e238c3e05253f052c053f180c1904920117161617153327330733273307333523232626272626373636373636342315020e07;
0x4d1518648145142a10204d25161bcd96969696bd2f183c17c901041e0a173e052d053e052b053e8c231b0b1424190d1709203722481728170715040405120818;
0x37373634173727373636373307061401000058002503bb020000370001001740142fbd96969696cd1b16274a21102a1444826418144d6337113012132f113564;
0x33352626333523373634353526263317171616071737171616173727272626372707272626273335233736343523151516162315330707060627071707060717;
0x55608560103041545150408046308660102031233ce0202460401d033120301016a086607091545150404530852040903145602039a01151616231533070614;
0xd0c3f0d0f2514743f0b1c13d1d4111b0b3f7513260f0d3f0d1833890b8a1b260d0b3f0b0f25137d102e20a80104015e5c010245010160610202020255130309;
0x11121113333043e3233041e32130000250012002003600200006f00020000101a0b3f09220f0f22093f0b1c11c7202e107c14240f0b3f0b0d261b8b0b8a1b24;
0x2003e0fc2b454c452b2b454c452b20030912120b0d182c25242d1b100f15130aae010ffe572028180f0f171414140c0b142621c6112323042e2223040e222311;
0x33352327032e343536132703071415031e2327032e343536132703071415031e2301000041002a034002f6ff210001005efd2b454c452b2b454c452ba2021ffd;
0x2a088f0c2b312b0c3a0c2e342a085252051b242216095540560d23312a088f071d232015095540560d23312b09ca40023307030e1737033e3307030e1737033e;
0x1421232e232121322b2e1e3f191f15151f1918244b010abafe31261f2b1e190d1c2015131d1918244b010abafe31261f2a1d190f2102c80c2b312b0c3a0c2e34;
0x3435022e373634112311151616070606141516161415060100005a00560052004e004a004600420033002e03780200007a000800001421232e232121322b2e1e;
0x352305333523053335230533352315333523053335231717333727070706062327022e2703373634352626343536363233161415060614151616372734353636;
0xa3fe91915d0191919191a3fe919183583e583c160f100304010f110515780c060e0e3155354f680e0f060d44110f0e3c663d01044604023e683e0e0e116d0233;
0x29270a2adcfe0e210c172a2a18323d1c404b1a2b29150c240f181a14162528193e5630050c1f1563019afe141e0b052f573e182927161518170391915d019191;
0x363637363435052e07040e141516161716141506173734352626272634010000510020039802f6ff420001003f3f3fc13f3f3fc13f3f3fe0a5a51d2b1d33140d;
0x2f040630434a40282c2b110f1131242b1220185202033e3736361707061411231533153335333523113526263717161617161614150606070614151637273435;
0xe1c2c3f53363c3c0f06090a0f1f1d3522201b050a232914011b28280e1f240a030204676746666604020307281c15392b1820122b2431110f112b2c29414a44;
0x9802000058000700003d2c1b060e1e0a0210421e7dfe3fc0c03f85011f3e10010a1f0b092d4a3229230a051b2022351d1f0f0a09060f3c3c36543f2c1b0e0202;
0x230317031e3337033e1707061415161617031e2137033e3736343526262715040e2127022e342307060627022e2100004c004800440040003c00380014002003;
0x231d070304020302061314120664fe061215140602030205330e161b1b0a40020e222014431744190f2f2f11f101333523173335230333352307333523173335;
0x1a2e0f10291a40958e711c1c718f94401a2f0c102d18474cadb3aa933744bfdadf64305e1c123741203e3e6e3e3e373e3e6e3e3edc3e3ed6081d22200c240c23;
0x3435023e112726340123020e1415021e07061415163233130000210010002003d30100006f0002000092929296fe9292929292c9011333352c0c0c2e36331102;
0x19013f214131334a2b055afd03574248021c3a593c3b4a280b17503e6a6e2003334d272d54353f623762670f013f7d693f2a3e1f3444a085306f023e35232626;
0x2726262737033e3417333715041e0301270727022e34230707060623272626272315030e2707010100003e003a00360032001b002e03e802000021000500003d;
0x1901011a17a20a1a1a160d5f2a600c1318190bbd4d0136290e1e19103d341915060404181c303b131f23102c3652019601333523153335231733352317070606;
0x3fb93f93252a01022c20e11c5259533d0b85800d3c5157501d82fed601273a2b6e6c54123f1e2a161330213912556d6e2c3d272afe2e03e1e1e1e11ea5a58a1a;
0x3737363617161607061415333535262637363617161617372737363435022e35333523112311232707171716160100004d003f0020030e020000370002003fb7;
0x180701073a0403081907010307143b310d0d202d14c1c1463c692b171f360e940126343536363233161614150622030706060717373315070606141516160717;
0x4e4e0e160c0106030b1a1845129113371c2537250a3c3f0b01f5fe6e3018211c0527011e161d0c0c1d161e207a0e361f172b6a3b142e211113313b1406050107;
0x3336363435022e01000047003c002e002703120200004d00030037281c2b19192c1c2836430104202118306f3b09263a261c3a118d1245141f0a030701051c0e;
0x121d29121101032e3307020e220326263435363233161415060622131716323335232306062737023e2117021e07272622231533333636170706061415161632;
0x2d432d0aec010b101812961018110d0618160720121220071515210b3324605e1c380d0215272815ccfe19272515030c40235154263a090314291c1d36273333;
0x21030203000021000200001a447d64637d441b90fe212d1445444544142e200601020a3f0602051063b78e8eb662120502063f0e02050b30452d24432a2d4423;
0x22a2f1d1e302b141c24202b433546465001181804040418166130ac31ac305123042e0717031e3233112301070606232726262707173337271300001e000d00;
0x36363435022e2726260717161607060614010000330028001c002e03d801f6ff37000300002233372c093b062b393724200355fd161f07072013573497973456;
0x282fd8fe4d34195d421b536e1d2b4d302f4a2b1d6c47233a5f19233d25a101060627263435363617141706063736343526261716140516160706061737363637;
0x3f2c2c3f043134393e021c401d183618053e2d40540f3d5b163c1a7950032a4a3332492a04568b21381c6e460a2b432ba1010706232c2e230b89352506070604;
0x171616372726263736343526263736362707060627222306062726071716160706141516160100006200550049003d0031003403c302f6ff65000500003e1c03;
0x1b143202363233161607020e27262617060627262637363617161407060627263435363617161617062223262637363617161605060617373636171632333636;
0x90e0c091034115f2e13122e0e112f0f102f11fcfe3f3031204120183a1f1f3919204120312c401a111b20152d4f1f411d46282d361a32174f3c411f4e2d1721;
0x13223c1c30283b1a1b45292e4c1d4caa5e1c5ba1462412118db41c5da84c1d4e2f29471b8802311112320b0a1c1d0b102f10d50c08103211113211080bb63111;
0x2a0360030000610004000b0b0b112a2a0f174419b82f12123413173f181234201c331313301f1f3613194017970d0e0d133715143813103d29301c3c22131819;
0x37173727071707270717010337270727372707173717071737131726260717163233363617163233363627070622232626230706220100004a003a002a001a00;
0x2f0731162f06a0062d162b072e382c350e41175647354c13114e35475617410e35303831064a0630397902153315231533113311333523353335131713173727;
0x5901053b058c053b103c058b053c05a4fe813228143c49292c2b2a493c14283230252530eb022d2d2d462e2e2e5d423b30082e182f08a2062a162d082b6bfe36;
0x333523053311230133112321000013000f000b00070003002003500200006f0005003c8a3ca2fe5e013c8a3ca0fd075901053c058b053c103b048c043b04a6fe;
0x11333533031e3201000040003c003800290020035a0300006f0004003fd53fd53fff2003e0fc2003b9b9b9b9b9b90701464665fe464650023335231533352315;
0x4135232b1d181f3126b346cbfd431c231d2741356801233533231523351123042e221533031e323723042e22353311333533031e323523042e22353311331121;
0x1c2b322b1cd88cfe5c27393927401c2b322b1cd88cfebc0244fd5c273939272003b3b3f9b3232b1d181f31261c231d274135f9232b1d181f3027b3461c231d27;
0x262637363637333521011123153311231521352311333523110100005800400028000f00070020032c0300006f000500cacaca5ffd1c2b322b1c402739392740;
0x3333236170706060707060623272626272726263717323213230606273736363737363633171616171716160727262201331717161607060723152135232727;
0x2081a0e010e1808010a1410130c13040404160d0f10140a0108180ef3fe1f670a160612126523aa01226509100a0814076a1d56fe2f02c98383d5fe8383c92c;
0x230d1011110503010121016f0b13060e146c3f3f6d0a1007071208723fa1fd20033f5efd3f3fa2023fe0fc20030e1a08020c16100f0d14050404160e0f10160c;
0x3727070100003b00370033002f002b001900070003002b035c03f6ff0b0008000002030814100f0d220c0c200f0f1014080302dffe010103051111130c210808;
0x6c73364447dbfd822c8397832d83880237270717372707173727070137270705062223032e3435363233031e1437032e2223061415031e323336340537270717;
0x6d5834513a33726d58344447a5822d8396822d83ff02832d8397832d8296832d828bfd822c837602261f295d5b4a2d261f295d5b4a2d4633566c733644473356;
0x16163727263435023e3435022e01000054003b0018002b035202f5ff37000300832c8297832c8297832c82f5fe822d83112b2d4a5c602b212a2d4a5c602b3372;
0x3d39450217161415020e141516163727263435023e3435022e012726263435023e352326263435023e2707020e1415021e07061415021e2517161415020e1415;
0x21140208022b2c1821183c4b102c29192019173d3906024d6a37334d272d533645764a0e2f6e623e2a3e1f35434a8556fcfd2b2c1821183c4b102c2919201917;
0x1d241515211402f3fd0f263c30343d19013f2141313943271043092338563c3b4a280b17503e47533216e6040d0f0c161a201526250b3c05100f09181d241515;
0x3211232707171732152306060717372117372727262235333637271300003a002e002a002a03a90200004200030000040d0f0c161a201526250b3c05100f0918;
0x61fe473e4319334c3337692b173f24133020172b6a31016a2b171f3014243f172b7923232634352315151632330323113313231133352123263435231515021e;
0x6f0003000017158f8f3f2c7efe0a01f6fe0a013f485c8f8f495b2e11f6fe6e30184205242118306f6f30182124054218300e02b7140d432d37b74146467534d4;
0x2a2407037f1901466a0304120d70fd3bf6018543d6fdfc9503212306062737211735331107272626053721171133112103010000180010000800200395030000;
0xe2327042e0717161611331523152135233533130000280023001e002003e302f8ff2100030000050403928c8c00ff01061e0d4045856ffe2003defe2201c0fe;
0xa0b59fee53f3fe5fc019709543a84fe3d55082501193117123672633e0204012c47575b2912172e17e28f63018edd8223373636011117161601373636270703;
0x2315331533353335232306062737363637023e3300002c001d03120200004d000100006c9d2fc8fe3e012f9f7064010c0d0444093e5d733d315e52422a074404;
0x83366a591d0514191a170707161a1a140545030b110c1f2d19030c45234ec046bf5c1c3d0d02172c1d0c130e038107030e2223042e2317021e17161607272622;
0x3435262207331614150622010000400033002f002b000d002a03120200004d000500003381836f44446f8381331e5a6732887d0e0502063fbdbd3f0602050d7e;
0x10030c452351c501631c3c0d4e374c4c37021c2f2f1c6501042e3307030e2227231533252315330737053e37211717051e072726222315213523230606033336;
0x2061727364460c0502063f3f0602fffe2f2b2b2f3513121212f402181d1e1b08ff091a1f1f19087e3e3e37013e3ea0112626231c1404055dfe0703131d222625;
0x373636171716141506061737363435262627373636130000a400930087009f03ff0300003b000300365b7076343575705b363d474747300b47657473611f0608;
0x6222306061415021e17021e32333607070614151616372734353636373636171616372726343536363717161637272634353637363637363617171415060617;
0x706222326263425262223061415163233363425262622233736362117330706062223032e2726263435023e373636323316163727022e231716162726222306;
0x131d203a310d0f02110a030e0b390e0b060712030d0a390e0b0504070409100847070c0f3a0b0c051c070d12193a2019160f6c223e0b61363736363732331616;
0x1b301e07282504e2fe1dbc0f669a5d314b3a321825432a263d222839331f3b5d1321181e11043e021d14194023193f421c4e4f1b254632243d42543a18185819;
0xd040604060d083f0f100e22131c13220e1d071b13122d191e243c191d2c0d6502140a14020104060310131720050e1c0e081a13fbfe1c13141c1c14131ca701;
0x3110f230f1e4867562f2c86490b0e141325381d232d1f100b2b2d1f034f162b1d193d1b1e32250f1c0d020f0a0e24151c12220e0e120a100e20141d11220e0e;
0x16010000da00cf00c300b7003403b00400004d00040003050a050e2213070603090a0b1c1c13141c1c1403402959cf5f3fb1e6701b2824090e131d1c18160803;
0x343536362322063736361716161415060617323336363435022e34353636230637363421172107060607020e2223052e3435023e1716163736363233021e1716;
0x1415031e373634352626373636071415031e3736343526263736361716161415060617323336363435022e34353636233717161415060617323336363435022e;
0x617161617363233161415062726263407363233161415062726263437363435262627022e2317161607272622230606272622230627222306061415051e0706;
0xe22180e161b11161a0b1d251d09141b140a0759fe1d4001081f181c4b565e3020535e5e544326131c0d2f4f2619201e1509323f1b0e06027602272626222306;
0x7231050c212f2f0e21120f0c09110801212f2f0e21122b221121100e21170e161b1117190b1c261c0815100714280e161b11161a0b1d251d0914070d06010402;
0x10b701050f19130d2517221e05ff0e111c190b152113c6120e1b1a0c152113281902030416281e4a1d2f0e030f3e28222b1842471517130a09142c1e31536a74;
0x1b14130c061c2501070e070c12100a0517140a151d0c131b14130c061d24063032043f2b88526271360f263f4d4e442e0608181604163419030403020d0f4046;
0x71108172c2617011c3a16141c0b0104020204162d2617011c3a162b2c041027190b11100a0517140a151d0c131a15130c071f21140e140d0617130a151d0b14;
0x420005000e1f1712160c1710551228151614071d1f0a1c0f28161712071d1f0af4352a0e1b12195a703a388131011b0f01052b240f0521331d0a3f565f583f0b;
0x16141506063736343526263307060607020e2223052e3435023e17161637363233161637363435022e22230606250000b300a6009b008f008300340345040000;
0x2306061415051e07061415031e373634352626373636071415031e3736343526263736361716161415060617323336363435022e343536362337363634211716;
0x412001061b28280d1b14060c03363435022e2317031e071716163233363627262605363233161415062726263407363233161415062726263401262223062722;
0xe21122b221121100e21170e161b11161a0b1c261c08151028270dc7fe1d1e090101201c151197081f181d4a565e3020535e5e544326131c0d2f4f260c22111c;
0x8e050f19130d2517221e050001130c1c190b152113c6130d1b1a0c152113cdfe471516140a09142c1e3052687372310507212f2f0e21120f0c09110801212f2f;
0x1f2187a64e054e9074271a1c080b4032317f4b2b88526271360f263f4d4e442e06081816041634190101121602150e151d10070101c7191d2e1a4a2c32180701;
0x2240f0521331d0a3e565e57400d071108172c2617011c3a16141c0b0104020204162d2617011c3a162b2c041027190b11100a0517140a151d0c131a15130c07;
0x16010000b400a9009d0091003403c00400004200040000352a2e797e33569a7949052c0d201712160c1710b01026151614071d1f0a1c0d26161712071d1f0a0f;
0x3526263736361716161415060617323336363435022e343536362337173727373636173727373634231506062707170727071707020e2223052e3435023e1716;
0x336363233021e17161433363435022e2317161607272622230606272622230627222306061415051e07061415031e373634352626373636071415031e373634;
0x410a0a951097159810971c4b575d3020535e5e544326131c0d2f4f269d0327262622230606171616173632331614150627262634073632331614150627262634;
0xa09142c1e31546b747130050c212f2f0e21120f0c09110801212f2f0e21122b221121100e21170e161b1117190b1c261c0815100e921091070b049111930e0a;
0x1634190d01050f19130d2517221e05ff18071c190b152113c618081b1a0c152113ee201e1509323f1b0f0718191d2e1a4a1d2f0e030f3e28222b184247151713;
0x162b2c041027190b11100a0517140a151d0c131a15130c071f212d263d26162b13263d26404104043d33283d2954293d2960703811263f4d4e442e0608181604;
0xa1010403020d0f414e07352a2e797e33388131011b0f01052b240f0521331d0a3f585f573f0a071108172c2617011c3a16141c0b0104020204162d2617011c3a;
0xe2223262627071717163233023e32331616141300003d0020001d03be020000210002000e1f1712160c1710551026151614071d1f0a1c0d26161712071d1f0a;
0x6afe9d023e1a2d381e1f3c37301418291c312e3d1e3b261b31323922172716a507030e2223042e2317021e1716163233023e373636011521352335022e222302;
0x30717e33317d714a953622fd3f3f3e4b260d181e1814192c2f33191d181e18143732de0207141918170807151919150745040d100915292c1b1c2b27150d1707;
0x231523031521352335022e2223020e2223262627071717163233023e3233161614130000340020001d03be0200002100020000468e7f62393d6881893f225b65;
0x1e18143732de02808080467f7f7f7f4680459d023e1a2d381e1f3c37301418291c312e3d1e3b261b31323922172716a533152315331533353335233533352335;
0x17031e322507060627262627071733372713000038001a000c0021030203000021000300573f6b6b3f573fe1e103fe3f3f3e4b260d181e1814192c2f33191d18;
0x28201e2924180e1607be2a2f1d1e302b141c24202b433550011e150305141b6130ac31ac305107030e2223052e2317021e1716163233023e3736360323042e07;
0x7c868034225b65308aac5053ab854a95361ffd2233372c093b062b393724751b2004071d19573497973456020714191817080611141514110545040d11081924;
0x42e0717031e3233113335233533352335231523153315231533050706062726262707173337271300002d000c00210302030000210002000046a29d804d3a62;
0x246a013f573fe1e13f573ff5111f0f0d1818573497973456022a2f1d1e302b141c24202b4335467b7b7b7b467a7a7a7a500113190a09111a6130ac31ac305123;
0x1e171516163233363435022e3537033e230706062223022e2317021e17161607272626010000630043003a002a03e20200004c0003002233372c093b062b3937;
0xe0c2629010d33308c0137272726222306061716162727022e2726223736363337323316161715271706222326261716140127262223060607030e3736323303;
0x2a07210a1e12ce6efd0b071b1e0125279dfe142215192c0f101510120c143a181230343112a72141331f1c2540281f2d20160841122424111128250c44030d15;
0x350102141b160210474d1e201f37452508c9115670742e748b3d3c8a76205a612c262f1003040d0559012e020313140b2219131405152438351f071906050c06;
0x1533150100005b003b0032002a03d8020000420003000c0d1220131706100b02041e1e050103121f0b1a030113980ab4082b3e0c2720860102021825030a1d3c;
0x2622373636333732331616171306222326261716140127262223060607030e37363233031e171716163233363435022e11333523353335233523152315331523;
0x1e0125279dfe142215192c0f101510120c113b1a1230343112a4012143331f1c2540287b7b7b7b46848484841501273537272726222306061716162727022e27;
0x350102141b160210474d1e201f3745250820013f573f4d4d3f573f4062016b2e020313140b2219131405152438351f071906050c062a07210a1e12cb920b071b;
0x3335230100003e0034002a03bd02000037000200000a040c0d1220131706100b02041e1e050103121f0b1a030113befe082b3e0c2720860102021825030a1d3c;
0x15191915074506131a1f2314fd3cc099020622232634353316140133112315333521151516163233363435022e3537043e2307030e2223042e2317041e152335;
0x1040b5077898939468e7f62393d6881893f33848b7b550b04993f49011c0f101b2036dffd3e62a8010120351f32372b442513221e1914074307141918170807;
0x2235333523353335233523152315331523153315213533352301000035002b002a03bd0200003700020000172c4020262b2901a7fe3fc02048491941312e4325;
0x1c0f101b2036dffd3e62a8010120351f32372b46267f7f7f7f4680808080fffe3cc0990206222326343533161401331123153335211515161632333634352626;
0x15331515031e2315211300002b00220019002003ad0200002300030000172c4020262b2901a7fe3fc02048491941313044236b3f573fe1e13f573f6b993f4901;
0x20039c1e022731247e01243126031eb4500327302440defe46defe402431260350ae019133112327022e34251515030e2311132337023e343533352111231121;
0x151632333523353333161413000013002003e00100003200010000d8fe24423d391b31311b393d42242801d8fe2037384028313f7a0186fe3f3128403837203f;
0x3536323316141515163233363401000061003403bc0200005000010067763112022afd1c2e3f905e71200330583ba5462b26dbe6a83a40783526262223112311;
0x35262223173333161415150622232634353526222306141515062223263435352622230614151506222326343535043e3411231115040e141515163233363435;
0x602050b0e0e0b0d0e2b2b2a2c0e0b0d0e2b2b2a2c0e0b0d0e23383e38234622353c35222c2a2b2b0e0d0b0e2c2a2b2b30013536323316141515163233363435;
0x3f3f3a2c2c12122c2c3a3f3f3a2c2c12122c632f39241c2032293601c9fe1d22181b2c493c613b3e3f3a2c2b13132b2c3b3e3f3abb020e0d0b0e2c2a2b2b2b2b;
0x6063521111737353736363435022e34353636370000290025001c0018001500270385020000320005002b13132b2c3b3e3f3a8a3a3f3a122c8c2c12122c2c3a;
0x2d171b21151610171503c53501962b25041a1d1596cbfe9b8e1b01ca3e33063ffee0e138401a1821181d194d3521151706063517021e14071521351327211307;
0x3e341123112323060614333536323307030e140100001c002003d60100006e000100f1f14b15029015181214100a9b9b9efe88c00106321adbb7fddede7a011f;
0x18002003ee01ecff3200050000462f3e2a232736299a017dfe317667715e16202332503edb023c18272b2718465f3b583046403a5b09242b2719530133353504;
0x3d653c325435a7a7330123373636173517161607152726263333070606033311233537363634352626222306061415021e153315230100002c00270022001d00;
0x3f0a74740a3e2c3f710a3e292a3e0a37fe140173083b5b373d623939623d375b3b08b296e1026f093d29462b3c08b5293c09b46f093b2b46eda73555313c653d;
0x3736343526262223060614151616152315331507061415161607173337273736341300005d00580054004f004a0046003c002a00fc03ca01ecff50000800002b;
0x551b21be233736361735171607152726263333070606133533150706222326343532331407373736363317161617070706062327262613262635333523352335;
0x370e831824088244072419043d3715141415292960161408030403081614141509030403091388261eb23979384a2d4b2d2d4b2d4a385b5b1f27221b556b2b6b;
0x1f1f1b3a3ad314111406061413121314120606121214013c0b063f9f2b0b583b2d492a2a492d3b580bca3f060b3c2c283a0d657c7c650d3a28ac02440725183e;
0x3333363617021e3327022e0706062211231107060614151632333601000039002f002003d102000032000200192708484812363946082519192508fcfe6565d3;
0x523c09470a527640182a32260e2f511729523c09470a527640182a3226462e4f3040351d1b2402263435023e150722173333363617021e3327022e0706062235;
0x500001a1a20312108a20c7528130422342032523401121a0f6128130422342032523401121a0f02027ffe09334c2e2d410a9b022323361a151e33542f511729;
0x1bfe2b0246ac46ad46e501b5372707053727070737270705372707132115211123112311231123112311211300001f001b00170013000f0020039a0200006f00;
0x34002e00ac03740200002c0008002d572ea12d572eec2d572ea12d572eb3fe3f2003dffd2102dffd2102a0fd60022d562e46012c562d982d562e46012c562d98;
0x36152334273307061415163233153335333537363435022e37363627022e33352115330706061417161607060614151616010000710068005e004d003c003800;
0x72a1d1b352330261e02020e1117021e25033e1127022e01231527022e3736361716161415060625231527263435023e17161607020e17233736173517160736;
0xf01071007162e1f0c0a97fe2f0a0c212f16070e07020e1a137a362b0b460c2c84221335a5910e183635044181263023351a1c2906072b3d232ecbfe30274329;
0x204e0c2c1a272e32d907043629234438111b4326295b531f3f3f235d5b1d26431b11384424293604cf023541191941350a8efe232e2f131941370888012f1319;
0x3d290a860117505c2a1f4542371277fe0a293d2ae5fe3c0b373f1a0408050b2735221012043f420411112336260b0507031941380c0438538b8c543874230b67;
0x33352323060627222315330706063337363617161607331523153315333533352335333523352315230100003800340030002c00130066032402000032000500;
0x3f4d4d6202461c01469afe469d0105271e2c4a0f1e0f1e1e4a2d1f270546053623243505b2313131463131313146317f01112311053523152135231505272626;
0x1415020e1415161637363633170100004c0045002003d102f5ff280002001401ecfeb6c6c6c6c6683e5d1f3f0404083f1f5d3e3b591515593b6f253f61613f25;
0x3b6b011716141506060135231123112327353736363435262633352337270707060623272626270717231533110727263435023e343526222306063337363233;
0x51d3b0c642003171a161b5e017b46623b2038223325232d413e100e1b0204021a0f0e3e3f2b4139201f18211837272e4a08380621221b1821184b620e1f0204;
0x20000103729223c11cdfe3f1301edfe70390c384c2b3760193f7a1f1d1a380c0c361d1b1e7a3f5bfe6f040f100f1d22291b2a3542491f302619211a221b2635;
0x2003750200005000040084b0fe8db548036ffe87eafd2003f5f5f5f54646f546ef012335330335331533112311233523110100000f000b004803ef0100006e00;
0x2707061415021e173335233523152335231523073333043e17031e3233352323042e37033e2307030e27032e2317031e07030e22230100005d004e003f003300;
0x232631241d18131d1b1f2c201e413c300d48153a3b320e0c343d3a124a10313b3f1d202c1f1b1d13186b02373636343526260717161415060621272634353636;
0x848336509174470504477492503c87806920204b493d24e1021b2b192c251715111719d3fe1917111517262b192b1b30f32a3c273c2a8f1d243225242d20202d;
0x20031603f6ff50000700000627351a28470f39072813172805052817132807390f47281a352706e63f636363633f324d5548131348554d323f243d494b20216e;
0x1616140336323316161415062223262634071616323336363435022e37363435022e2223020e1415021e32333607140100004f004b00470043003f002f002100;
0x36221b1c1f39234438582e28381e2f4d2b1f2430546f3f3f6e542f2f546e3f2e2d038e0133352307333523173335230733352305060622232626343536363233;
0x1725273a1d335735253a212e5036072761363f6f533030536f3f3f6f53300e0c0d63027676dc7676dc7676dc767694013f6b42406b3f3f6b40426b3f4e201c1e;
0x72127371123110727112311171300004b00470039002b0017000b002703f40200006e000600003f3f3fe93f3f3f076d42426d41416c42426c41dffe23293a1b;
0x9ba82135211333363435262207331614150622232326343536322723061415163201272626112311070606333736361533351716160537112311072711231117;
0x1e5fea627032201defee4514545510329363629a12936362903514545510a01134e3246324e134b0d25164616250c8dfe9b462a1f463a2e6e022e3a461f2a46;
0x3fcafe3c31313a351d1a1a1b1b1a1a1d353a31313c16fe3f4308f80108fe08433f202207494907222007a61b01f4fe2c205b0196fe3e31313e6a01a5fe202c0c;
0x161415020e1415163233363607020e1121112726262201112315233523152335231133373536363233161614171300004500210016002003800200006e000300;
0x3512310819110c16242f2435272039129d563806860105385430070146a046a04632462d432222422d45a007062223263435023e343526222306061737363233;
0x1319261d252920211f0f150f0e0b1519231923311f2265315b3e3502cbfd3e5b31f1fe200367676767e0fc2b2f4b2a2a4b2f2b20030715160c16242f243d271c;
0x16141503112311211121153311253317372723053317163233363623070622232626230100002b001f001b0015000f002d033303000032000500001014100f0a;
0x86fd09772b8b48353f6350334142327a022b264833140c9d469501d8fee2eefd486f2e83623001531b5c3c4c6b14450d403938450a7f03023535262223153333;
0x70606222326263435333521153315151627222306141516160100007f0073006700500044001403cc040000320005005e1d2d3f0a0d525efeb90247fdb9023f;
0x3233023e07020e2223032e34353313020e273435363233161425023e1716160706061415161637023e17161607061415161637033e17163233023e3435262607;
0x1a2e12210d2b2d22053d92565aa5804b07082f1f68935e78a75626b4fe220f0c0c293912219904020e273435363233161417020e27343536323316141315021e;
0x150b191c0718571321150c1b1b081748376da56f558f6e2103416a84477cb9815024784d1321150c1b1b0718cafe2a2c11050b0612302412210f34330d09140a;
0xa01421130b140a0113261f163a1c011c2a18091208072923163a1c01152229151c1f3c6b935721391a1c48794a65ac6d483535783d3d032a32163a1cec011321;
0x35001c0027031f03f6ff32000600001f1d07141615210b08af1f1d07121716210b0886015aa07a46375f3b3f6e522e3c67818b4173a0fd1f1d07121716210b08;
0x1533152307363435022e250507060614151616272626222323020e052726263435023e01011716161415020e17373636323333021e13000051004d0049004600;
0xd3235255f642a3f2a646024a802303111082225adfeacfe26210810313127285466435531536042582335331723353307273323331707173733352335333521;
0x1c1604305b4a18134a52203401ccfe20524a131a49593141101e130b1c1a270326266426264b2a53c423512e25a92e1e1ebefe1e1e5d330d1912030102011219;
0x17161415020e01010000520045003b0021001100bb038b02ecff32000500848484e0274b2b269c3584353584f06845254d4214efef14424d2545683e161c0c0c;
0x21e272207263435363233141522173634352635363427022e35231507020e151607141516323716160727373634352626371707061417272626343536360101;
0x14161c1f1f1b3a3a353d0c0109171a0d3e0d18170a010e3e348a2627d7d82726272bdddc2b27a22d2d0e3038d4fed3fe38300f2c2d2d015e0106063736363233;
0x65370ba8a60b3969550904161b2938e35c28d6d6285c40376427dbdb276437c023423e1c3a59302701d9fe30593a1c3e4223dafebb031409050e0e0505101006;
0x37363435022e151716141506062707170706060100005100450039004c037703000032000300000203494a1917494d068c1514141529293738291b15030d0552;
0x7c70215150622231533333634353315151632333523232634350137363233331616352726263727072726343536363507060614151616072726222323060627;
0xa0507030c146f84262b352b26846f140cadfe2a7f3d193d7f2a071009d02a29151b2b23313b1c201f931f44221923431f931f201c3c30222c1a152a2ad00910;
0xe093f2e1cecec1c2e3f090ee0b4fc1a1b1b1a45050a04d9292b0f30202b3f073604344a242b4a1797060505069817492b244a340436073f2b20300f2b29d904;
0x3523263435023e152315331507070606141516163527263435023e371115062223153333363411171716161415060613000055002003ee0100003200010000e0;
0x182310696957162f1f444d242d1e280f260c145166262b260f281e2d24c337363435022e273533352335171616141506221533363435022e2307060614151632;
0x3f1a451229301d3035023701181711221f0c1fdcfe0e093f2e1c30011f0b20221117180153024d441f2f16576969112218190d2b3b233217841732233b2b0d19;
0x3636343535023e1300006a0036002d003103e002f4ff320003000235301d302912451a3fca0d1e1e0c160c3729301a312b12122b311a3029370c160c1e1e0dca;
0x2306061415163233033e323316141506222326260317070606272626373707020e27353335231533150727022e07171616141515021e07060607173737363637;
0xa2142418022c3cbe3c2b011925142f0b1c152532150731223d213c3c3d0715372a151c0bb91716323336363435262223030e2223263435363233161637272622;
0x220f3751353019241a0b1f010e40201c342041473a5848454d322a1f1c11122509320e40201c342041473b5847454d322a1f1c11122509a849072c18192b084a;
0x171514152b20182d1f2d381d2b2a1d1a1116171514f7fe7a222e11112d227b7a11243124472d3f3f2e4725312411330b1a241930314d3710183014243b23224d;
0x16031737373634353536363333033e3435211515031e3233171614151506060100004a004600210033039004f6ff500003002b20182d1f2d381d2b2a1d1a1116;
0x2420153c15103e213c463d100ca62f5c503d23c0fb233e505b2fa70c0f3528f0021533350523042e2107030e222337363435231515030e27022e343523151516;
0x2f45443e4916a7fe3b23285c25381f250d365c747e3c28283c7e745c360d241f371d3a18d40246f5fe20433e311e01b203011d323e4320680f153c1520240f0f;
0x46ad61012111212723152335231121112315232500000f000b002003990200006e000200009d9de12e4d5e642d2d645e4d2e16493e44452f3b261e12121e263b;
0x6e231107173717372705231133012111213721112113000014000b000700030020032a0300006e000400001902c88989e0fc2003898961fe9f01ad46ac462b02;
0x6272701000042003b00280020038b0300003200030083fe902c89892c98fea2025efda2023fe0fc2003468a2d84842d92c5fe4646ea015cfea4014644fdbc02;
0x3363615272634131107061415161615151632333523232634110117161607071737170706063337363611331117161633272626373636230706062711231107;
0xb50149fe0b19074b89011f19191f383d35353d2b264833140c00fd172809014d14811d1e2f11451a3c2046213c1945154128777c114710756d08461a18437364;
0x50000700001a0564051913ce019cfe06382b2b39079e1c2e3f090eca0244fe0e1a030522383303338b4c6a931de6fe1c011d9a6565a4306eeb8e80d46504;
0x3316140117031e27222306061415161632333636343526330706141516163233363634352622230637033e33000063005b0053004b00430037002b003403e502;
0x311e402d11112d412f1e0a5027262621070606052726262107060605272626210706060727262621070606070622232634353632331614050622232634353632;
0x84fe070c068401060d07d21d32151b0115311da11d16151e1e15161d50011d16151e1e15161ddbfd091e2d422e11111d321e1e321d1e311e0b8d05071e321d1e;
0x1d16161e1e16161d1d16c70256b3a6872a051d321e1e311d1d311e1b160b180e1e311d1d311e2d40062a85a5b459040503f7010206033dfe040904c801040904;
0x7e0076006a0062004c003a00280022001c00100098036403000008000b00001426131326148c1327131327138c122714142712b40e3c2b2b3c0e851e1e16161d;
0x26253737363633171616170707060623272626251733372723051733372723012737323233161607020e27373636173337171616352726222306060100008500;
0x60527262621070606071406233526343533071414072326263307062237033e342115031e141516163233333636340137373636331716161707070606232726;
0x30403081614141509030403091345fd6b2b6b6b2bf0016b2b6b6b2be7fe330e1c0d0d190d17140602e616371f622b621f3715257e4342792599022726210706;
0x7110944010911060e01e601e90199202107db07212195131b1b13d4fd131b1b13143c3a603a3c14e2fd16140803040308161414150903040309134502161309;
0x120606121215141113060613131213141206061212147c7c7d7d7c7c7d99fe5a02010124240e04270d14078d8d07140d451c16161cee020c069801020a05c4fe;
0x6e00050000232a1626118c142613132614611d0e0e1d0f13050905d02e29292efb3c363d543c3c543d363c294c7c49497c4cf9fe14111306061313121314;
0x716162337363217232726262223020e23353736363435022e3521150706061415021e0323152335231121112315232500003f00380031002a000b0020039902;
0x382a2a38db3a28283a433807ca083825cb27052e472a2a472e05302d482b2b482d9f012c492b2b492cad46ac462b0246ad610106063517161437363615272634;
0xe802df04f6ff320002003d02d0013c2b243d01d0023d29e12f24242f53283f25253f2899022b492c2c482b017076012b482c2c492b024e025757e0fc20035757;
0x7061415161607272626220101270727263435363617370107170706062223022e372701173717161415060627070137273736363233021e070100004f002f00;
0x65191d1d19652aeefe2d492a748240547c632d482deefe2a651a1c1c1a652a12012d482d637c544082742a497101020e27373634352626371716163233023e17;
0x331c1d34234329fcfe295f225d2b2b5f225f29fcfe294423331d1b332445bf028c723206222826230532728c5d4692873405232729220634879246470112012a;
0x3d00230020038204f6ff3200020000223d28062a773939752c04283d221e3d2c042c753939772a052d3b1edffe0401295f225f2b2b5d225f290401294424;
0x26341c1d35248204060637363435262617163233023e070614151616272626220537243233031e372726263435023e2707020e22232426071716161415020e01;
0xc3436302a758442557f632ef002da501e22222251dc854a9d943d2222231e3d939c4908fe440a01ad48988c6f202d24351d1c34262c20708c9848adf6fe442d;
0x3233041e3213000083004100e1024f052b00500002001d203a8c5e4a9d45211e0b1c18459d4a5e8c3a181a0bab36340c1a281c302e637f554284752a301c281a;
0x23263435033e343535032e3435363233041e3233043e3213363435032e343535033e3435262223040e2223042e2223061415031e141515030e1415163233043e;
0x3628312b385a916f6f915b382b312836331f2c2d1f1f2d2c1f333628312b385b916f6f915a382b3128b9161415030e141515031e1415062223042e2223040e22;
0xe102161f2d2c1f1f2d2c1f16151520283e659c72729c663e28201515161f2c2d1f1f2d2c1f16151520283e669c72729c653e2820153e331f2d2c1f1f2d2c1f33;
0x302b1b1b2b302b1b88fd41271f29222533271327342522291f27411b2a302a1b1b2a302a1b41271f29222534271327332522291f27411b2b2f2b1b1b2b2f2b1b;
0x11000d00090005003502140500006e0004001712111c202d412f142f412d201c1112171b2b312b1b1b2b312b1b1712111c202d412f142f412d201c1112171b2b;
0x6e0005000501effea0b10149feb701bcfe8301cbfdb283015a5aa026fdda02e0fc5a5a06045afbc72d0320012311330305112101231133011121113325010000;
0x161632333636343526263535043e3411211115051e2137043e3411211115041e141507061415161632333636340100008700700059004d004100d003dc050000;
0x635042e3411331115040e1427262221220635042e3411331115040e142726220506222326343536323316140506222326343536323316143726262107061415;
0xdcfb3c2b2a3d3d2a2b3c3e1814330315182d4b2d2d4b2d2c240a1011100acbfe090f120f0b0187fc010b0f120f09cbfe0a1011100a232c2d4b2d2d4b2d920422;
0xfe292c16101a332f1415482c2e492b2b492e2e030c07090d0f0d09a9080e0f0d09060c07d5fb0c07090d0f0d09a9080e0f0d09060c078b043c2b2a3d3d2a2b3c;
0x433b0101cc3d3d2b2b3d3d2b2b3d3d2b2b3d3d2b2139151539202e492b2b492e2d4815132f331a10162c299a0166fe282b1610182d29292d1810162b289a0166;
0x36363233021e1415030e140100005a00200388022f0050000100023b4321100d1c1d5c01a4fe1d1c0d1021433b0101023b4321100d1c1d5c01a4fe1d1c0d1021;
0x33e343526262223060614151616323336363435262622353636323316161415030e1415333535033e343526262223020e1415031e1415060706222326263435;
0x508751567a402652431736282333190c23232b270b2637372646263737261f473d2e391f0b182423180112200d2d321428594944583214263737265001333535;
0x281c1705101f141e28102b3f302b2f1dd6d414262b35493123432b1b292b1019160601060b050306052130162a5034253c461f495c39241f1769024626373726;
0x3efe12023315231533112315331523152135233533352311333523353335212100001b0020031202000050000100a1111e2a43684e537239426a3d284b310e28;
0xe1415021e3233363607141415021e1300004200320022001203a003f6ff32000300009d3feefe3f753f3f753f12013f9d3fbe78787878bec201be6e6e6e6ebe;
0x1930546f3f3f6e542f2f546e3f3e6d29025899634a06062223262634353636323316161417363633021e1415060627022e3405363435032e373435022e222302;
0x3f3042573319053a3f3f6f533030536f3f3f6f53302e27080f0849673a0612033f6b42406b3f3f6b40426b3f2f03021748483103031a48462f16010d37586630;
0x62223262615173233023e3435022e2223060605000023001c0020034302f6ff64000200006d42426d41416c42426c41ee1a0c0f253f2f0e0f1205111f3528cb;
0xfd0e0e020341063f6f935555936e3e0403034b3e3e4b67fe1f1f254720204725101f0f23245594703f3f70945514231043020606111716140137323316161107;
0x3315333533352335333523352315232711333521153311072335231523153315230100005f003b002003e104000050000200008d2e1f022e8c554c01060f0d91;
0x6f6fe10407062223263435023e343526222306061737363233161415020e14151632333636253315333533131123110723353337112111173315232711231113;
0x20715160c16242f243d271c3512310819110c16242f24352720391250fd6f465ae646be3c319c8d019c313cbe46e65a466f6f6f6f4613743877fd387413466f;
0x1d262820211f0f15100d0b1519231922321f221a8b8b0b011e01f6fee043bd1701e9febd43e00a01e2fef5fe8b8b3f433f8a8a9203013f3ffdfe928a8a3f4356;
0x3521151715072737270717371707173717071737270727371707270717372737173727371737271300002f002c003a03ac030000320002001014100f0a131926;
0x383c5d2c5e3f382da2960153a795393fc4929efe8ac241392da32c3941612d603a392ca42d3839bcb73c382da42c393c5e2d5f3f392ca3d52733131707273537;
0x23112311231123112311230100001a002a035c0300005000010000567cfe393fc0ab913f3f91b3ba41392da22d38405d2c5c3b382da22c383ab4b23c382ca22d;
0x20000932c89892c933f2c02d4fd2c02d4fd2c02d4fd2c02d4fd2c0266018d2d84852c8d5e014646784678467846465c03210717371737272135231123112311;
0x39140c2e0421352101151516323311211527071737270735211133333634352315150622233523152135231523232634352100002c0028003703740400005000;
0x70000dd0901bf1d2de4fe8d3e319292313e8d1c012d1dbfb30d0acacacaca0a0db3a6fd5a02c1fc2b264e50013e319292313e50014e262b460c143946a6fd46;
0x2135211323353305233533052135210127352115071737353315071737112111173727353315170100002f002b00270023001f001b0017003503bd0300006e00;
0x9ffdd42abe6940b5d902464683fd4646f10155feab018c464683fd4646f10155feab01e8fe93ab019333a646b033c3b1fcc333b046a68b022335330523353305;
0x15020e15331616141506061717031e323311212100002c00190020031d0200006e00020000a8a8a8a8a89afe7f7f7f7f7f78fe9e2c2c9e2bb54069be2ad46102;
0x212d2d1d20031b1a0c174a2e23294a3b20110d621f270a1b1a2a442737320b2d3b2c2c3a2b4c51fe1d0211272626272626373634352626373435262623171614;
0x21230614111716160706060100002d001d003403560200006e000200005efd010707253e131d5531446a1928361a29120b2e1d0e231c023f28452a2f4c113f03;
0xd180c4c15452b2e5628332d5a2c2e5f57202b26f3fe262b1326122946155602353632333316141507020e272626033736361716163727262637023e11352622;
0x20036404000050000500000e09090ef60e445e32091107d9fe20583126542f2a325a2533604a141e011c2e2e1c1ffe0d1c0e31581f0a030c14e3140c1c4f5b2c;
0x35363601262726262107060607060601150706061415021e07062223153333023e171616323335232326263736363435022e3533000044004000390032002600;
0x1d302366011581a02ded022ea0810a140a87fe29412754c5ab204028abac2b463d1f1f3d462bacab274120a8c656264229e12111211717161415060621272634;
0x4e2a2a4e1e26410970fe041e442222441e02080472029e06304a29487c692d18283f1e2c14142c1e3f28182a6a7d492a4930069e9afd66024623301d360efd36;
0x223152327343435363633171614152305331507173717372735333535262633352115330706140100002600160034036202000050000200006201990941261e;
0x6e000b00007d070e086eda5353da6e1d3f42902c89892c983a5874d2593f3f59d274de01469c014e5044504e9dd4fee68a2d84842d92e651415170fe52415262;
0x3736270706060523153315231533152315330307030e1415041e3527022e37023e1300007c007800740070006c005d00590021001d00190015002a034f040000;
0x1523153325023e17161415020e222726340523153301071707060637023e2307030e27032e2317161607061415161637033e1716323336171632333636173727;
0x2a574b370b192f13131606210d407637342c20332e2d1a371c0a01454545454545713685846f43436f8485366aad74161674ad6adf2315331523153315231533;
0x32280e0e28321ce001454545454545454565fc334a2203032032371702039b0345459afe2c4529552d1c383212491634322a0c0b2a353415470e23146f620f0e;
0x763843765b380403385c76432c582b1166601c3311030b1d392f232a1401011214312d1e171d37111b0bf53f2a3f2a3f82010d242b2c2b13132b2c2b240d421c;
0x3d003900350031002d002900250021001d00190015002003ba04000050000b003f2c3f2a3f2a3f3c311b06120f0e29311b090c18103f3f20012c3f0b0b012b6e;
0x23353317233533052335331723353305233533012335330523113301213521172335330523353317352115331123353335211533152135333521153311010000;
0xf0f0f5f5f0f0d0fd200346468c4646f40146468c464668fc4646520346463afd46463a020cfef4018c46463afd464646f401d2468ca2fe8cc6fd8c16fe8c2e04;
0x35231507060711211113211121130000490045003b000700030020032a0300006e000500727272727272727272dafd414175018bfe41bd3d3d3d7c7c7c3b01f5;
0x30024644fdbc026e35231513062223263435323314253736360714151632333634352617161635272635231527262237023e2307020e27022e2317021e230606;
0xfea2025efde102e0fc20033c45151414152929e6fe1c4c29093d2c2b3c08294b1c10133c1f45251b3d3b173f152c270c0b232a1544183a3c1b24451f3c131028;
0x2a03c602000050000100008888d3fe1f1f1b3a3a05111806171d374242371c18061811450d076653060507527d45395e3b04033b6038467d510705065366070d;
0x16162315331716162315331716323336363335233736363335233736333523373636230706062315330706231533070606231533070622232626330100005300;
0x55236a54070d0653440b0741350b0d0346030e0a7c71080a6e5f060c06604917331a1a331747a701232726263335232726263335232726262317161623153317;
0x71593f152c163f2b2c3f407c39397c403f2c2b3f162d143f3c48483c60025d070c065d6c0509046f7a0b0d0447030d0b35400408054252060b07516822573330;
0x41e1716163233023e37033e34352127262622210000380033001d002003d30200005000030000152c163f162b163f407d38377d413f162b163f162c153f5971;
0x34260101f80103edfd2d1e2e3228091020342e30341e0f0829322f1faafe0130573b69023517161605030e07062223262627022e343536362117140111231515;
0x6cb9705635060d07080d0735556f410c220b18218d01ebfe783b6b5b452a050a0d07060d0c062c455a693a78657a36363d0159012837310813282c322e0f082d;
0x211525363615272634050606351716142507061415161632213336363435262622112315213523210000280024001d001600e001e90400003200040000d60268;
0x6c011b19191b016c011d196c01393121311b1b3121212f1b08018585cb0279fc3a3c4333430432443c3a33fc654b204d435703444c20204c444635fd46390435;
0x112111232726262205231133363634352626223521150706141516161521331614152113000062005b00540023001a00a8024d0500003200050000dddd461d01;
0x7f060635171614253636152726340537363233161415060637373632331614150637373632331614150606373736343526222306062722230606272223060607;
0x1033a0d20180c14033a0b201a0c1401013d01013727172b111b2e172a111b2e2c480a872f03ce04305539390263444c20204c4445fc654b4b65e8013a41bb01;
0x904040506052a351011211010203c42583501d6fd5d6b2df519011b302021311b7878013b31303a01635e7126a8023a3c443259fb33433c3a7d01081f1e0c14;
0x272622230617161632333636011300001a000e00fa02e7066600320002001d016c011b19191b016c011d193519261412040a0e03211e1412120a031f20141204;
0x3f0c07413e77fe9601576526487647190f6ffefa023d22484b101845243a53065105f6fa146e6858690137674a326529f7044706222326263736323316160101;
0x6f3e316f9701690176314a4376314a837f46316f4646316f90fe1b032117372733173727333523372707233727072101000013004c021b032801320001000f43;
0x33e3317021e141735032e21352137363627032e07030e17161623153307020e1415210100003b002e0022002003ed03e2ff32000300007631457631453f3e31;
0x63c072e221c212c24033904242c204d212e26057a0287fd072e26072a393c191b3e382807262f077a7b05262e22bb0132023636171616070606232726260335;
0x3005025255029296c3d3d6c29e4fd153641502f2f5041361503143c494f263f376623224b46350d0e36454a222366373f264f493c143c20033e29293e0d232d;
0x192b28261506110da55afa95013307020e031127022e353315231515021e17021e3233033e37363634352335333523210000280022001c002003e80100005000;
0x20034f0100006e0002004a9c8c31a30151fe318fa24dbb7c0b205051227293522021529170245050220b7c3f560c1d1e0f460e201f0d5aad0c10061628282c19;
0xe8010000500003005f2290fe2260367afe200390278d56568c287c20032e27262f9b4646555645b4363611272634131123150706141516161513000011000a00;
0x1606100cad5afa5aa50d11061526282b191b012337023e17021e231127030e07060614153315231533352335333535022e27022e22210000280022001c002003;
0x6c005900470001032007f6ff50001000004da28f313d8c9c4aa3018320529372225150200b7c3f3f7c0b22505024709152215a0d1f200e551e1d0c563f2c2828;
0x706061415021e37272634353636052133363634352626222311211117163233363634250000d900d400d000cb00c600b300a1009b00970092008d008a008200;
0x61415020e173736343536322527222223060614150606173736343536320126262223020e07352315073523150735231505272634353636270706061415021e;
0x3736343536320533161623350535371525072735371707273537052507052226353307062225173337363633173337363633173715232537023e072722222306;
0x653c3c653d53c4fe1744272d4b2d9601233736361735171607152726263333070606252722222306061415020e17373634353632252722222306061415060617;
0x1f2319190eddfe030703172d1e130f2423191a0d03052d4b2d2c492e02504663465946d9fe2229242c0a24422920351f1f35202942240a2c242922430274023d;
0x650538500a9f0bfe2de4fe2b2e59a9323163a9fd090141d40307039f0a503896fc3b310e1f02043b3b0e1f02043b128dcdfe06120e01c6030703172d1e060d0a;
0x9139623d3d62398ffe1c011c212b492e96440824183e370e831824088244072419cefc030703172d1e060d0a1f2319190ecffe030703172d1e130f2423191a0d;
0x221a12500115312a191a0e2a103823191dae01492a28462b143c4d194354164c5e490c3d342c450b430538542f2b4c350b0a364c2b2f543805430b452c343d0c;
0x191a0e2a103823191d614434784f530baa464c4d07161957532e199542735a017532449d641d3b0c5f1d3b0c640b4b4c0d221d077b01112d2a100e0909271124;
0x8f008a00850082007a0065005c004900370001032007130050000e00001927084848123639460825191925089701112d2a100e0909271124221a12500115312a;
0x2315073523150735231505272634353636270706061415021e0706061415021e37272634353636052133363634352626222335250000c200af009d0097009300;
0x36331733373636331737152325373636051133151516323315252722222306061415020e17373634353632252722222306061415060617373634353632010735;
0x37363435363225272222230606141506061737363435363205353333161605353315253537152507273537170727353705250725330706222322262517333736;
0x1e130f2423191a0d96032d4663465946d9fe2229242c0a24422920351f1f35202942240a2c242922430274023d653c3c653d0d3b012722222306061415020e17;
0xfd110147ca039f0a5038030703a3fc3b310e1f02043a3c0e1f02043b128dcefe0d1702df01b52b26361ffc030703172d1e060d0a1f2319190eddfe030703172d;
0x2c343d0c9139623d3d6239297d030703172d1e060d0a1f2319190ecffe030703172d1e130f2423191a0d58050d38500adafe4151fe2de4fe2b2e59a9323163a7;
0x2d2a100e0909271124221a12500115312a191a0e2a103823191d9a010d23371c3044193f53540c3d342c450b430538542f2b4c350b0a364c2b2f543805430b45;
0x2a191a0e2a103823191dd97844341fc3c3486c0cc4464c4d1419295753411caa4d7f1c3244019c641d3b0c5f1d3b0c640b4b4c19300a9f5b01b81c2e59240111;
0x32113311051121111516323315132107050e1737053e331121113337000022001e0015003a02620700003200030001112d2a100e0909271124221a1250011531;
0x1001f0feacbc01fbfe1c2e6dfb012e605f584d3b123d0e374b5861643005fefb013f4065fe15012b2635b623fd35a5cadad5bb45183eb0ced8cdad3c37270270;
0x150706062726261726373632331616072201022e2223020e1415021e3233023e3413000069005f00540049003f00330028001d001300e702f702330042000900;
0x23262637321706062335373636171616251616152327262637363607361716141506062734050606272634353636171614072626353317161607060625363633;
0x29020101192626190101c01b177f0c3722145e3dc6fe360c831a1d033e5c15f31402141111140212155b01365f7e48487d5f36365f7d48487e5f364216070622;
0x3ec203192a281b0361017d5f36365f7d48487d5f36365f7d488d01120214111114021413e3380b7d171c033e5d14a4fe1d1a820a3825145e3ebe031826261803;
0x2a1903c61c19840c3824165f3f8e3b0a81191c033f6016f81402141110140212140a13090214101114020a130ae5380c80171c033e6015b71b177d0b3b261560;
0x15213535033e3435231515030e1415233535033e34352315273523150735231515031e1415010000570051004b0044003d00200398030000500005000003192a;
0x21d2c2b1d461d2c2b1d3c1d2c2b1d46b946b9461d2b2c1d850227262637153335170706060735352626371133111707061415213535032e3435231515031e14;
0x321e7b74172a282c331f464f1d302c2d311e71558af7f78a55711e312d2c301d4fe1020b1408ab46ab08140bf21f165d465d161fe8fe1d2b2c1d461d2b2c1d26;
0x11370000070003003902c503de006e0002000c180c875454870c180cf15a20371849eefe1201491837205a461f332c282a17747b1e322c2a2c197a7a192c2a2c;
0x21112726262201112111333537353636323316161417151300002f001b0010002003800200006e000300dd3fa5fe5b01de35fdcb02effc57036e213521251121;
0x27274630262a200338293232463232293855523a088601083a532e0901eefd463a283e22223f2a39b43523152335333523352315231533152335231517020e11;
0x2223060614151616323336363413000034001b000f004403e80100005000030000632455358484355524633c284e3963029afd3a4f29d3fe2003e0fc2a263046;
0x2f30613b2c2a3d3d2a2c3b3e2d4a2e2e4a2d2d4a2e2e4a2d73072711231107270717071737173727371707173717372737030622232634353632331614372626;
0xcbfe483327312a2325242524454524252425232a31a3fe3d3d2b2b3d3d2b2e492a2a492d2e492b2b492ea2022e5046502e2b302f2a2a2227204e4e2027222a2a;
0x44448e82683c04033b041616213736320127343536362117161415060633373435032e2223030e1415161601000025001e00e601420407005000020033483501;
0xf6ff50000c00352f2f3567fe201e335d28285d33101f0f2225447a664b29294b667a44132410e6019b40bcfd409a4750fe062b24d102252a020341063d68838e;
0x222326343523151516160706141516323315071737213521353335211523373634010000a6009a008e00820076006a005e00520049003d00310025001903a203;
0x36341726222306141516323336340523263435363233152526222306141516323336341726222306141516323336341726222306141516323336340123151506;
0x15163233363427262223061415163233363425262223061415163233363417262223061415163233363417262223061415163233363417262223061415163233;
0x58320219121219191212191e19121219191212191e19121219191212198afd3a141616163a221f28244551477329707d01a3feebcffe381818c6022622230614;
0x121219961912121919121219180119121219191212198c19121219191212197219121219191212195019121219191212193219121219191212199dfd21292a21;
0x13171715563519191212191912661919121219191266191912121919125d028921292a21887740460b0b2e2432332d6b2c683fd63f2e0f423802011912121919;
0xf103f6ff32000d001919121219191212191912121919120419191212191912121919121219191235191912121919125c1919121219191266191912121919129b;
0x230614151632333634072622230614151632333634072622230614151632333634010000ac00a000940088007c00700068005c003b002f00230017000b002003;
0x141516323336342517161614150606222326343536362707061415021e3233023e3435022e132622230614151632333634072622230614151632333634072622;
0x33363407262223061415163233363407262223061415163233363405262223061415163233363425262223061415163233363401331133113335230126222306;
0x6733538b6538375127c819121219191212198519121219191212198519121219191212197919121219191212197219121219191212192e032622230614151632;
0x12193919121219191212198ffd191212191912121900011912121919121219d8fe5a465afa4f021912121919121219b9fe173b2a4c8d606c682d23163a493456;
0x522e364c33118dfe191912121919123a191912121919121b191912121919121c191912121919123219191212191912f50219121219191212191b191212191912;
0x127319191212191912071919121219191212191912121919120b017dfe83013f70fe19191212191912e70d253728294b2f463f2c471336195f433e4f2a102540;
0x60706141516163233023e37363233161614150606222326262726262223060614010000620031001f037403e8ff640002001919121219191279191912121919;
0x1012281b6703023e34352626222306060706222326343536363736363233021e141506062223022e3435363233021e17163225021e3233023e34352626222306;
0x2d57633c347567405d9d614473542e1407091b1d0c2865468cfe3965874e54916d3e5faf7767a44816221f2b12111b1e172b62414765373f6b42346027102322;
0x160b0f1d250d292c6c594d31376a9a6376b96a344314311e182a1a172314251b3e6e4a4d6d3a1f2f14271b1622122002675634488155627e2b0f0b060a130c1c;
0x432213736363507030e1517031e3527262621130000150090021505d4003200010000254a724d5c884c3b31110f1411071d172628102552856173a0542a3f3f;
0x1123112135130000150011000500e10260036e006e0003002f3f0e470833424217101742423308470d3b2bd60185fb256629315a4c370e0e374c5a3127602573;
0x32000300f5f5c9feea0c010dfe730141caed3e34028dfd3fa20228d9fefa01328efda9013c61fee60132ccfd46c002a007213501371121112113213521150705;
0x332f1336143137383832155fb04cc00215213505011716141506061737363435022e010517161617051e3727052e2726262500002a0026001500200330060000;
0xe0412041b0b2411181d120717011811230911577a8782691d281c6d8a8e7f580c0a1e18340303f3fd98030b170605340b0e1d2e197afc54023eb35c132e3435;
0x12a02b1fc34f103231133012311330121112101152335211505213521112111230100001900150011000d0007003803f10300006e000500003f3f97eafe040b;
0x7c007900680043004203d803f6ff6400040000f70109fef70109fef7015efd18846c57182003cafd3602464683fd4646f10155feab017dfee8f702c3fc59;
0x152327263435023e27070606222327022e0717161614150606233523113335333316161415060617373636373636323316161716163727263435363632331513;
0x2b1b2f1d49aa0727233317071737333523152335231523352313022e373634352626171632333636070614151616070606141516272622230606373634251123;
0x110e22351e031942312a401b01014002463a0e0a293c1c1d286e925e075c8f6c281d1c3c290a0e3a4646491d2f1b2b22190b140a1c3b4830395e1a131d171922;
0x4e247dfbfe4f2b3e1d24390834040b050f231827110d1108340839241d3e2b4f720225245f134a292c942e4628462846141e34220e102f1741934c4f9441172f;
0xd79898989854fe493a0d234e235374291d18181d297453234e230d3a49250e0e0e13130e070e073605017d244e194179611d311a32210121311a311d61794119;
0x629a6c38af0311171616052737363601113536051133112517161411331135022e2223020e141101000023001e001900a502af03f6ff6e00030026264f2b27a1;
0x1042921bfbf21290493fd55015944e5f3fe0d01e5224f2cabfe5501487d5f36365f7d48abfea502476e27defedc266e48c8fe320601460601191846386c9b62;
0x353632071425161415060635352625222306141516163221333636343526222306062726262223020e01000040002d0024001b00f001d5048f0032000400000c;
0x6452310102d3fc35293c3e1c95033c29351cd4fc1a57521e4f473b03484e1e52570d1b0f2e8389383a89812ef60327263435033e3233031e1415060605272634;
0xb0a0c1534342c1b1b2c34341511040c07031b161a1d282b531d1a161b03182b2834402a1f311d1d311f2a4001022a402323402a1c010101305062662e2b65;
0xe2217233533333636051523351716321735211533113734352622233533352115331523230614151616110100004400280021001a00c3027d046c0032000400;
0x8b2b26de393e151d1e09374c140f1c0db9fc4c0d1d0e577502d2195259ef279bfe27ef58530e0b640423022e3435363233333634353315151632333316141502;
0xf6ff32000700151f210b191a2e1c29291c2e1a190b211f15d3940a071194a5070ad3d3d329012723333e343f3f343e33102713d7fec302091e1d153e39de262b;
0x352626352315070606272626373435262635231507061415160706063526263523150706141516160706140100009c00900082007400630057004b009703a503;
0x33021e14150606052634353632331614150622212634353632331614150622250706141516323336343526262107061415163233363435262635352626373634;
0x19180b142b14161b46191813102c3873032634353632331614150622173435363233161415060627262605263435363233161415060706060327263435023e32;
0x6271343171643f010248fd0d0a1514090b11b6020b0a13150a0d1315fd1919302928270e126302110f26292930181a382d100f151c4619170114291409151c46;
0x315191f3a0dacac0d37201c14040a071d3a0cf2f20d37201a280c28764f87020d0a15130a0b11d00a15130a090e08120828fe0b0a15130a030710074d01013d;
0x42212142624111120cc2181113262712111818111227261311188e0c37212c3138231a311010311a2338312c21370c4f4f76290d28161f3a0df2f20c36200809;
0x23020e07030e14010000470028002003c602feff42000200001811132627121118290c13262712101701050a04121710132627120e09040905d4fe0b180c4162;
0x33312f3320100928322e1ec602033e37363233161617021e1415020e070606232726262726263407031e171614231521352335363637023e3435042e27262622;
0xd06070d0a052a455b6b3b910126342d080f2e322c281308313728162e251d1202c801121e272e15431023372605092b9e012b0905263723101f2f3329080f1e;
0x4b0020037e03feff2c0004006f5535070d08070d06355670413d401e0a084e55554e080a1e403d404e2b170a01383d3f3f3d38010a172b4e403a695a452c060c;
0x150606152135272634353637363607141516163233363435262622230637363435042e2726262223020e07030e1415161627222306061401000086007a006e00;
0x33161415062221263435363233161415062213033e37363233161617021e1415020e070614151616213734352627262634031632333636343526171616171614;
0x1a2a190c1029190a0c13199f0119160a1a2a100c192a1a2a291e341f0b080e0e1f2f3329080f1e33312f3320100928322e1e0e0f070b1f341e7e032634353632;
0xa052a455b6b3b3b4a1603233820a4021607081c1e0e1147fd0e1e1c080716145426342d080f2e322c281308313728162e2512191611e7fe2a37272e15a9292a;
0x20143219432a300e0a1e403dcefe2b20311a20180b0e07030e0d0d2d1f3e3b282d0e1403070e0a181f1a31202b1f20382304174a3b3a695a452c060c0d06070d;
0xe1415021e15230100004a003f001f00200385020000320003000025140a1f2e140e12120e142e1f0a14256b016f5535070d08070d06355670413d421e080428;
0x8202522162842263328023537363617161415062213030e23062215233523262227022e3435043e3317031e140121333634352626372707373435042e230703;
0x78513a3520304a340c77e1020a13092e3e2c371d061937310305033702060231381906141e231e0963091e231e14befe3101543d4231a71e55031622252008d9;
0x510200003200030000770309041a411710052501272c250a01a2a2010a252c270c1b292e446a51516a442e291b90fe232c2f4b20613734111220353a51775958;
0x16141506220317031e1415030e23062215233523262227022e3435043e032133363435262637363435042e2307030e1415021e152301000048003d001d002003;
0xa13092e3e2c375f091e231e14061937310305033702060231381906141e231e09633101543d433219201622252008d9082025221628422633f4013537363617;
0x9041a41171005a202516a442e291b0c272c250a01a2a2010a252c270c1b292e446a511ffd232c2f4b2119442920353a5177595878513a3520304a340c77e102;
0x2e3435043e03213336363435262637363435262627032e2307030e07061415161632171616152301000062005a005000450025002003d9020000320005007703;
0x8d9082126220a3d2f214e450e1f11331a022634353617161605363435171415020e07353736361716141506220317031e1415030e2306221523352326222702;
0xe1021f28010e0dab011c281128225d0a130938342c375f091e231e14061937310305033702060231381906141e231e096329013b431b221d392c313f0b22241e;
0x1005a202516a442e291b0c272c250a01a2a2010a252c270c1b292e446a511ffd0e221f21381a1350262836091a3a5075555a78513a1b0a352721311b0a100577;
0x230707062735231517070614151616010000550052003f0035002b002003ce02000032000500001a131f0d1b2f14074127070f1e0e262006b177030904243a14;
0x27262634353636323316161415020e1733273717161614150622212323263435023e170706141516163221333634352626373634352626373523150727262627;
0x4a4978473e6b4219451510223a222c37f4fe203128223a221188411b433b3101543e4031424f2f2a27461b17321a384037362d1c46282a3050413d0237170337;
0x8c04112d2c111005060f112c2d1104034b2e1f220e232c2e4b201d5d372b4b1d50a491430a0f05b6b60a144391a4501d4b2b375d1d3802191a5019436a3e4777;
0x37363221331616372726262734353635232326263523150706222325000037002300a8011b030000320002005353cefdbc042b43282b462a2a462b28432a05bc;
0x17472d3dfe2711283e14340d3d1eb1011e3d0d34143e2811274e1c3c0eb90e3b1d4eb70207061415162137343526263333363633171632211714150607060617;
0x8d0200003200040000102417202121201724103825253817332122053622221f22221f22223605222133173f211c20201c215d0a0b0c91fe0c0b0a0e2d48164f;
0x6220317031e1415030e231523352327022e3435043e03061415161632213336363435262637363435042e2307030e14151616010000530048003d0021002003;
0x617342e1337122f341706141e231e09b9431b433b29013b431b433219201622252008d908202522161f1a180223232634353636171616173537363617161415;
0x2b260c1b292e446a51e8fd4b2f1f220e0e221f2f4b2119442920353a5177595878513a352029441936022f382b3f2e09120ac30a13092e3e283169091e231e14;
0x2e27022e220500008800770068005a00380020039703feff4d00050000051017411a04090377770309041a41170f06a202516a442e291b0c262b250ba4a40b25;
0x263435023e3736363233021e17021e1415020e07020e03030e07030e07020e141516163233363634353636171607061415021e3233023e343526263736343503;
0x4215392214151a2622090913233d33990106061415062223263435023e15161401030e35023e37363617161425363617161617161614272626341735022e2726;
0x473f10d50615163032122328080618353131321607061c1e1611323016150501653e22130a071f231c04204f482e0b282a2d2b0c11170a1a223a154386716f84;
0x540211650371e2210050511221d3750161a554248775b39090a0d0804022d1d150d0c16304b2b011f02071c3c3605060413200e1a2bf3fd2c1a0e2112050703;
0x110343602090b051c48481b060d27483d57804c07050c07070c05052e4d69413d48270d061b4848e90203080d0a0731506b42071d314730191907071919311e;
0x1616323307231501000075006a005f00310020031f050000320004001c332905030404273c290a060c05cefe0808050236341001050b07103f28293e10070b05;
0x1617021e1415060607061417213735262627263435033e3736323301352327333336363435262637343435042e272626222323020e07030e1415161607061415;
0x80f1e3331eb30341e0f082b363221010154621a413b940f2b2f0416141506062223373636051616232326263435363625331523153315331123152335333316;
0x2a4512a9fc452aa925240b45376001b3ecec46466d7a2c38130832392942370e0d27ddfd270d0e37422939320813382c17db012b0f943b411a6254022132362b;
0x5c5c131c040f5b5c416c5131060d0b1ffd3f2222351f4443050b190d3f6c573f28060c0d04040d0c06283f576c3f0d190b0543441f3522223f2003450b2425a9;
0x16160706140100004f00420035002500760265030000320004002320151b0c1434393934140c1b15202302a5843f2443011ddc0b0d0631516c415c5b0f041c13;
0x3435363233161625363233161415062223272626013535043e3317031e1415052135352626373634352622230606272626333521153307060627262223061415;
0x9901240f26292237070c1c0e63fe1c2c2f27096709272f2c1c05fe41020505463d464117351e0f1b084d79fe4d081b0f1e361641463d460406ec020606232326;
0x17162115301bfefe2e1b3b495e7c51517c5e493b1b2e3f720d190d03462b2d46080b2468323f3f3268240b08462d2b46030d190d04021c0c07372229260f2414;
0x1093fcb7030f2c4466916272a26e4617e90337033e3233031e05213527032e2223030e01000019000d009601e9033500320002000030152116171c050505051c;
0x60614151616323333363601000067004f004100330051037804000032000400173b3e34212c474f233f3922504e4127345768335b010b223958805a60895c39;
0x5062223232634353632333316142536323333161415062223232634071716323333363634352626222323060637363435042e2107030e141516162726222323;
0x3b0c3e3a29393e18173f3b25111e0d2d2c24383e350ea6fe0e353e38242c2d0d1e11253b3f17183e39293a3e0c3c033527022e3435033e3317021e1415030e15;
0x6d44446d5d575732384c1d03021c301e182b1a1c15200309272b1f2c434619ec1946432c1f2b270914fe231c3d1c23221d3d1d224402221d3d1d22231c3d1c23;
0x99030000320004006207121f32272551658054548065512527321f120762260b0b161810101818101018160b0b162f151c1a2b181e301c02031d4c383257575d;
0x161415062221263435363233161415062203353735211517150727262223061415161632333621173233363634352622230606130000450039002d0021008a02;
0xfd210a0f2226101662020f26220f0a211ae83cdffe3cb3112e1a252e2035214512ce0111452036202e25192f11de213537352735331507151705263435363233;
0x3000012d2935d10105d93d24528160a192e170a12120a172e190a16282b01795e54545e79bd121533251d3321282821331d25331512e8015ffec23c953cc2d9;
0x1122a57bc7fe7ba52211250207270337363634353733171515021e05213527263435273537352115171507151506060100002400210013002003250200003200;
0x1f0020035f020000500003004b4b5efd0926280c7d86867d0c2826093f3f02321ca8bd618c3f3f8c61bda81c3202e10244435b0a0c05761b76050c0a68fef301;
0xfe101c23141f231f14d60135042e3435363632333316161415040e14073315022b152135233535043e34352626333521153307061415041e140100003b002300;
0x28399b3f3fd5232b1d1e2b47382f4e1d3f3f1d4e2f38472b1e1d2b230c02141e231f13223e2975293e22141e231f137571714635670135141f231f14221d104f;
0x263537363435231521272634352115150607020e2315210100003900350030002200200357040000320004000028342321283d2f2b462929462b2f3d28212334;
0x3928702812210d1101462826262846bbfe051638fe1a0b232c1b2836032101233533231523272601373636373435211515161716163323272626211533353526;
0x4005d5d2e2fc0fe52ca5f987b14147b985fca5223542d867b1c2d015d012d1c7b862190674a4a7a9a428c82333f200329296f670c09cafd2839101b3e011b10;
0x1506222126343536323316141506222516163233363435262621071415161632333634352626331121113307140100003900350029001d0094024d0300006e00;
0x2a58f101adfd5302b4fd0d0a1514090b1110020d0a15130a0b1187fd16271c282707099d011216281b292607091a21fd1c124303213521012634353632331614;
0x1614150623010000630049005d023d0500003200020000f1defd313e403f403f3e31313e403f403f3e312f461c49582c42162a5841461c49582c42166f0191fe;
0x706141516163233363435022e3435363233161637272223061415021e1415062223263435363634353526262227343536363527262223272307232306061517;
0x1e20273d1d271d311f223210101c2a13111c2517502ff301c001f32f5017251c11783d0537343526263736323333363633171632333316160706141516052115;
0x11140a22211e39241725201e1e20251724391e202237010c1e13112813c42d210d560d212dc4132811131e0c5dfcff030a1225412a45531d271d160c0f1a0b0a;
0x55030a006e0002000021202b41150f0914141414090f15412b20213f390e1b131e3420442e1f382d230b0d1003023b0628261f2e292e1e141d1918131413113e;
0x34302e3420100932413d28550314061406062135263426343435043e37363233161617031e14131135042e2726262223020e07030e1411010000350016002a03;
0xd05395b6e7234defe22013a7e7a6542060c0d06070d0a0540657a813bdefe2a03010101a4fd01012335382b060f2e322c2813072c3b372543293e4133080f1e;
0x706141516323336343526263701000080007c0078007400690055004f0042003c00ac0318050000500009002f3e3e2c05052d3f3f2e0534726c5b3a050d0807;
0x14150622232634353636051121153315010727373634352626333527333533153335231523352115233523153335331533071533070614151616071507173733;
0x287f700203352e31352c1f538e01233533213315230521352107172337270727071723371337272626343536363317161415020e171523052335233533051616;
0x240c160d19113611190d160c2474cdfe329fd1f70121171613181007035efea3fe9fc1026b1910211d0eca5bd6653c3c65bafc653c3c65d65bca0e1d21102362;
0x4814534f3f2ef5373f3f37f52e3f4f531448231d391f463b542f6a080f09222c332b2a2d0a46a7026565f0fb6565650346fdba02ed72b12b1f3d3e1f2bb07236;
0x500004000026263590cf63381850501838631ffe481f2620171d461818461d1720261f481052cf2eca0915111116190a11190b747b01accf17015b301f391d23;
0x60706062123042e343536362707061415041e3221070606333736363307060633373636371236230706062337023e33000063005d0056004a0084030805c3ff;
0x4220463f8e5516624446253e18590e212f21eb231533173707372707270717250606233736373633070606012735231523230614153335333336343505210706;
0x91013a1b552f3510205b0d1306a6fef44647262b4647262b01014b013d5511203a1bc7fe1038444438231613241f242842505147170e011f3a1a471a3b225723;
0x502e1c8f326dda760f37241b2d35362d0d1a39142f1c5128163e4341352032733a3e713032723b76be478d070175408744234a5e40674d612876772e5c5c2e77;
0x36360721352127022e2726262223020e07020e010000200013007f016a037f00320002003f3d30c659263e3e2659373a223520685f2a552bf4013904e42d1d45;
0xae3f2c452b060c0e05070e09052a462e40012e322c27140a351c7bfe1933089f3803e1fe173229080f1e34302e342010092932186a0336323316161716162137;
0x16162137363607211115163233023e23150606222326341135032e2726262223020e07020e250000300023002a030f03f6ff320002000008070d063b2f2e3a07;
0x50c0d06070d0a052a462eb72e322c28130a351c7bfe1a32089fc701444b363916023e0a1f202a1f1d2823060f1e33312f331f11092933170f03363233161617;
0xe0706061415161607222326340100005c004700380030002700e102320400003200050008070d073a2f2f3907ae6efe445e3557321c3e2b3d2bbd011e3c3424;
0x61415163233363605373634352626220733161415060605371236331712160507062223343536360517163233363617163233023e211716163727022e230702;
0x246d40defd141c0a124432b5fe02422917280d0b190e212e1e0b0a0213261438587854218b1e3b3b1d475f3001010d261321fc03070622232634353632272306;
0x1007081e2a111b30152369dbeb8272a882390f3947240407041720117d0205180e0d133d4003454e2135201c340a05024736204f4503403d25301bfe406e2315;
0x330023001700e102bd03f6ff320009000011161213191e351f301c2b3026295e08382a20311a351e19161a04a06705018a8afbfe67292018131d3d11682c3513;
0x3636323316161415060622232626340526222306141516323336340107030e141516163233363634352626222306063736370000850079006d0061004b003f00;
0x14151632333634072622230614151632333634073333363435022e2223153333021e141506222307262223061415163233363407262223061415163233363425;
0x1219b60120351f21341e1e34211f3520fafd1912121919121219990210353d3623335633335533335533070c06404f7726222306141516323336340726222306;
0x1015858c619121219191212191e19121219191212191e191212191912121906ca59521929361c9d9e091e1d153e39c418191212191912121932191212191912;
0x173732203f151f210b191a5019191212191912661919121219191209352020351f1f362020361f4619191212191912bd010f3b4d555424345330305334345230;
0xb00b3012a011f019600010000eae04646962315333700000300e000dc00f6ff960001001919121219191266191912121919126619191212191912693e33;
0x2dcaca2dcacafd0137173727372707270717070100000b000d02fd011e000f0001002b2b1f1f2b2b1f69012b1f1f2b2b1f1f2b96262223061415163233363413;
0x23113301000007000300a802350281014f010200d9fea80246469f012311330100000300a802e50181019f010100caca2ecac92ecaca2ec9cadf01caca2dc9c9;
0x1d9fea8024646a04646a04646ff23113313231133132311331300000b0007000300a80285028101ff00030000d9fe2701d9fea8024646a046464f0123113313;
0xfe2701d9fea8024646a04646a04646a046464f012311331323113307231133132311330100000f000b0007000300a802350200004f01040000d9fe2701d9fe27;
0x46a04646f04646a04646a04646ff2311331323113307231133132311331323113313000013000f000b0007000300a80285020000ff000500d9fe2701d9fe5ad9;
0x23113313231133052311331323113313231133130000170013000f000b0007000300a80285020000ff000600d9fe2701d9fe5ad9fe2701d9fe2701d9fea80246;
0xf000b0007000300a802d5020000af000700d9fe2701d9fe2701d9fe5ad9fe2701d9fe2701d9fea8024646a04646a04646c0fe4646a04646a04646ff23113313;
0x2701d9fea8024646a04646a0464670fe4646a04646a04646a04646af2311331323113313231133052311331323113313231133132311331300001b0017001300;
0x331323113313231133132311331300001f001b00170013000f000b0007000300a802d5020000af00080000d9fe2701d9fe2701d9fe5ad9fe2701d9fe2701d9fe;
0x2701d9fe5ad9fe2701d9fe2701d9fe2701d9fea8024646a04646a04646a0464620fe4646a04646a04646a04646af231133132311331323113313231133052311;
0x231533372315333723153305231533372315333723153313000023001f001b00170013000f000b0007000300a80285020000ff000900d9fe2701d9fe2701d9fe;
0x27010100a5a5a5a5a55da5a5a5a5a55ca5a5a5a5a5a8024646a04646a04646c0fe4646a04646a04646c0fe4646a04646a04646ff231533372315333723153305;
0x3fe9fe3fa6013601cafe3601cafe5d022135211121352101000007000300e5015d02ce0027010200003f3a013601cafe5d02213521010000030079015d023a01;
0xe5011f03ce0065000400003fe9fe3fe9fe3f12023601cafe3601cafe3601cafe5d0221352111213521112135210100000b000700030051025d02620027010300;
0x650005003f3f3fe9fe3f3f3fa6013601cafe84013601cafe7cfe3601cafe84013601cafe9b012135210521352101213521052135210100000f000b0007000300;
0x7cfe3601cafe84013601cafe7cfe3601cafe84013601cafe9b012135210521352105213521052135210521352101000013000f000b000700030051021f036200;
0x2135210521352101213521052135210121352105213521010000170013000f000b000700030051021f03620065000600003fab3fab3fab3fab3f12023601cafe;
0x300bd021f03f6ff65000700003f3f3fe9fe3f3f3fe9fe3f3f3f12023601cafe84013601cafe7cfe3601cafe84013601cafe7cfe3601cafe84013601cafe9b01;
0xcafe84013601cafe7cfe3601cafe84013601cafe9b012135210521352105213521052135210521352105213521052135210100001b00170013000f000b000700;
0x1f001b00170013000f000b0007000300bd021f03f6ff65000800003fab3fab3fab3fab3fab3fab3f7e023601cafe7cfe3601cafe84013601cafe7cfe3601;
0x84013601cafe7cfe3601cafe84013601cafe7cfe3601cafe84013601cafe9b012135210521352101213521052135210121352105213521012135210521352101;
0x23001f001b00170013000f000b00070003005102380362004d0009003f3f3fe9fe3f3f3fe9fe3f3f3fe9fe3f3f3f7e023601cafe84013601cafe7cfe3601cafe;
0xe6fdd1d10d01d1d10d01d1d1e6fdd1d10d01d1d10d01d1d11e013335230533352305333523013335230533352305333523013335230533352305333523010000;
0x2626222306061415161632333636340100001f000f000d028302950000010200003f3f3f3f3fe9fe3f3f3f3f3fe9fe3f3f3f3f3f1202d1d10d01d1d10d01d1d1;
0x24243b23233b243555323255353555323255355101223a25233c23233c23253a2240345835355934345935355834000106062223262634353636323316161437;
0x62223263435363233161427262223060614151616323336342526222306061415161632333634130000330027001b000d00b801b502ea00ce0004003b24243b;
0x1c2f1c1c2f1c3d2a5101201717212117172018012017172121171720e83d2a1c2f1d1d2f1c2a3d18013d2a1c2f1d1d2f1c2a3dce062223263435363233161405;
0x23060614151616323336340100004d0041003300270019000d00c6022902dcff5a01060000222218182020181822221818202018293d1c2f1c1c2f1c3d2a2a3d;
0x23263435363233161437262223060614151616323336340306222326343536323316143726222306061415161632333634030622232634353632331614372622;
0x22017172121171720303d2a1c2f1d1d2f1c2a3d302017172121171720303d2a1c2f1d1d2f1c2a3d302017172121171720303d2a1c2f1d1d2f1c2a3d5a010622;
0xb5026300ce00080022221818202018293d1c2f1c1c2f1c3d2adbfe22221818202018293d1c2f1c1c2f1c3d2adbfe22221818202018293d1c2f1c1c2f1c3d2a5f;
0x3316140506222326343536323316142726222306061415161632333634252622230606141516163233363413000067005b004f004100330027001b000d003f02;
0x1c2a3dce062223263435363233161405062223263435363233161427262223060614151616323336342526222306061415161632333634010622232634353632;
0x20e83d2a1c2f1d1d2f1c2a3d18013d2a1c2f1d1d2f1c2a3db8fe201717212117172018012017172121171720e83d2a1c2f1d1d2f1c2a3d18013d2a1c2f1d1d2f;
0x1c2f1c1c2f1c3d2adbfe222218182020181822221818202018293d1c2f1c1c2f1c3d2a2a3d1c2f1c1c2f1c3d2ad8012017172121171720180120171721211717;
0x3336341300008100750067005b004d0041003300270019000d00c602b502dcffce000a0000222218182020181822221818202018293d1c2f1c1c2f1c3d2a2a3d;
0x14372622230606141516163233363405062223263435363233161437262223060614151616323336341706222326343536323316143726222306061415161632;
0x3dce0622232634353632331614372622230606141516163233363405062223263435363233161437262223060614151616323336341706222326343536323316;
0x2f1c2a3de82017172121171720303d2a1c2f1d1d2f1c2a3db8fe2017172121171720303d2a1c2f1d1d2f1c2a3de82017172121171720303d2a1c2f1d1d2f1c2a;
0x1c2f1c1c2f1c3d2a9e22221818202018293d1c2f1c1c2f1c3d2a5f022017172121171720303d2a1c2f1d1d2f1c2a3db8fe2017172121171720303d2a1c2f1d1d;
0x22221818202018293d1c2f1c1c2f1c3d2a9e22221818202018293d1c2f1c1c2f1c3d2a9e22221818202018293d1c2f1c1c2f1c3d2a9e22221818202018293d;
0x2622230606141516163233363425262223060614151616323336341300009b008f008300750067005b004f004100330027001b000d00c602b502dcffce000c00;
0x6222326343536323316142726222306061415161632333634252622230606141516163233363401062223263435363233161405062223263435363233161427;
0x6222326343536323316140506222326343536323316142726222306061415161632333634252622230606141516163233363401062223263435363233161405;
0x1c2f1d1d2f1c2a3d18013d2a1c2f1d1d2f1c2a3db8fe201717212117172018012017172121171720e83d2a1c2f1d1d2f1c2a3d18013d2a1c2f1d1d2f1c2a3dce;
0x201717212117172018012017172121171720e83d2a1c2f1d1d2f1c2a3d18013d2a1c2f1d1d2f1c2a3db8fe201717212117172018012017172121171720e83d2a;
0x1818202018293d1c2f1c1c2f1c3d2a2a3d1c2f1c1c2f1c3d2adbfe222218182020181822221818202018293d1c2f1c1c2f1c3d2a2a3d1c2f1c1c2f1c3d2a5f02;
0x230017000b001a039302bcfff1000e0000222218182020181822221818202018293d1c2f1c1c2f1c3d2a2a3d1c2f1c1c2f1c3d2adbfe22221818202018182222;
0x331614372622230614151632333634170622232634353632331614372622230614151632333634130000a7009b008f00830077006b005f00530047003b002f00;
0x14151632333634050622232634353632331614372622230614151632333634170622232634353632331614372622230614151632333634050622232634353632;
0x6222326343536323316143726222306141516323336340506222326343536323316143726222306141516323336341706222326343536323316143726222306;
0x3425243636242534c21a13131b1b13131a2d3525253434252535e5fe1a13131b1b13131a2c3425243636242534c21a13131b1b13131a2d3525253434252535f1;
0x13131b1b13131a2d3525253434252535e5fe1a13131b1b13131a2c3425243636242534c21a13131b1b13131a2d3525253434252535e5fe1a13131b1b13131a2c;
0x14141a1a142435352525343425851b1b14141919142335352424353524851b1b14141919142434342524353524851b1b14141919142335352424353524c1021a;
0x17000b001a039302bcfff10010001c1c13141919142335352424353524831c1c13141a1a142335352425343425851c1c13141919142335352424353524851c1c;
0x232634353632331614272622230614151632333634372622230614151632333634130000bf00b300a7009b008f00830077006b005f00530047003b002f002300;
0x34050622232634353632331614170622232634353632331614272622230614151632333634372622230614151632333634050622232634353632331614170622;
0x16323336343726222306141516323336340506222326343536323316141706222326343536323316142726222306141516323336343726222306141516323336;
0x131b1b131419ef1a13131b1b13131ac23525253434252535ef3525253434252535f1062223263435363233161417062223263435363233161427262223061415;
0x1b1b13131ac23525253434252535ef3525253434252535e4fe1914131b1b131419ef1a13131b1b13131ac23525253434252535ef3525253434252535e4fe1914;
0x24243535242435352424353524c1021914131b1b131419ef1a13131b1b13131ac23525253434252535ef3525253434252535e4fe1914131b1b131419ef1a1313;
0x24243535242435352424353524f71b1b1414191914141b1b141419191423353524243535242435352424353524f71b1b1414191914141b1b1414191914233535;
0x17000b00a8020a032d00790012001c1c1314191914131c1c131419191423353524243535242435352424353524f61c1c1314191914131c1c1314191914233535;
0x1632333634252622230614151632333634272622230614151632333634010000d700cb00bf00b300a7009b008f00830077006b005f00530047003b002f002300;
0x23061415163233363425262223061415163233363405062223263435363233161407062223263435363233161405062223263435363233161425262223061415;
0x34272622230614151632333634170622232634353632331614050622232634353632331614170622232634353632331614372622230614151632333634272622;
0x36242534680106222326343536323316140506222326343536323316140706222326343536323316142726222306141516323336342526222306141516323336;
0xde013425243636242534e5fe1a13131b1b13131aef1a13141a1a14131ade011a13141a1a14131a4efe3425243636242534de013425243636242534ef34252436;
0x13425243636242534ef3425243636242534c31a13141a1a14131a22fe1a13141a1a14131aef1a13131b1b13131a2c3425243636242534ef3425243636242534;
0x142434342524353524253434252435352425343425243535244f021a13141a1a14131ade011a13141a1a14131aef1a13131b1b13131ac33425243636242534de;
0x14141c1c14141a1a14141c1c14141a1a14243535252534342525353525253434252535352525343425f71b1b1414191914141b1b1414191914141b1b14141919;
0xad021f03f5ff640006001c1c13141a1a14131c1c13141a1a14131c1c13141a1a14233535242534342524353524253434252435352425343425f81c1c14141a1a;
0xa00123153301333523053335230706062223262634353636323316161437262622230606141516163233363634072315330100002f002b002700230013000300;
0x243b24243b23233b24355532325535355532325535df7dad02464681fe78784302787864223a25233c23233c23253a2240345835355934345935355834a04646;
0x230606141516163233363405231533252315330100004f004b00470043003f003b002f002300150007000300f7010503ab007e000b00007df9fe3f3f3f3b3b24;
0x28282101231533252315330533352305333523053335230506222326343536323316140506222326343536323316142726222306061415161632333634252622;
0x128281cfe3c3c2b01313120013c3ca4fe201717212117172018012017172121171720e83d2a1c2f1d1d2f1c2a3d18013d2a1c2f1d1d2f1c2a3d95fe28281801;
0x140375028eff0e0110003333338626262626262a222218182020181822221818202018293d1c2f1c1c2f1c3d2a2a3d1c2f1c1c2f1c3d2a73333333f701282818;
0x622232634353632331614372622230606141516163233363407231533010000750071006d0069005d004f004b004700430037002900250021001d0011000300;
0x26222306061415161632333634072315330733352305333523070622232634353632331614372622230606141516163233363407231533073335230533352307;
0x1d2f1c2a3d532828c43c3c2b013c3c442017172121171720303d2a1c2f1d1d2f1c2a3d532828b101231533073335230533352307062223263435363233161437;
0x1c1c2f1c3d2a793c14032828c43c3c2b013c3c442017172121171720303d2a1c2f1d1d2f1c2a3d532828c43c3c2b013c3c442017172121171720303d2a1c2f1d;
0x8c2626262a22221818202018293d1c2f1c1c2f1c3d2a7328862626262a22221818202018293d1c2f1c1c2f1c3d2a7328862626262a22221818202018293d1c2f;
0x340723153325231533010000970093008f008b008700830077006b005d004f004b00470043003f003b002f0023001500070003008d02050323007e001400003c;
0x33073335230533352305333523050622232634353632331614050622232634353632331614372622230606141516163233363425262223060614151616323336;
0x23053335230506222326343536323316140506222326343536323316142726222306061415161632333634252622230606141516163233363407231533252315;
0x201717212117172018012017172121171720303d2a1c2f1d1d2f1c2a3de8fe3d2a1c2f1d1d2f1c2a3d5328281801282821012315332523153305333523053335;
0x3ca4fe201717212117172018012017172121171720e83d2a1c2f1d1d2f1c2a3d18013d2a1c2f1d1d2f1c2a3d532828e8fe2828cc3c3c2b01313120013c3ca4fe;
0x26262626262a222218182020181822221818202018293d1c2f1c1c2f1c3d2a2a3d1c2f1c1c2f1c3d2a793c3c3c8d022828180128281cfe3c3c2b01313120013c;
0x11000300140305038eff7e001b003434348626262626262a222218182020181822221818202018293d1c2f1c1c2f1c3d2a2a3d1c2f1c1c2f1c3d2a7328282886;
0x1516163233363407231533010000c500c100bd00b900b500a9009b00970093008f008300750071006d0069005d004f004b004700430037002900250021001d00;
0x33352337231533070622232634353632331614372622230606141516163233363417333523053335230523153325062223263435363233161437262223060614;
0x34353632331614372622230606141516163233363405333523053335232723153305062223263435363233161437262223060614151616323336340533352305;
0x3d532828210123153317333523053335232723153305062223263435363233161437262223060614151616323336340533352305333523372315330706222326;
0x2a3dc9fd3c3c2b013c3cb92828f52017172121171720303d2a1c2f1d1d2f1c2a3d013c3c2b013c3c81fe28283b012017172121171720303d2a1c2f1d1d2f1c2a;
0x1c2a3dc9fd3c3c2b013c3cb92828f52017172121171720303d2a1c2f1d1d2f1c2a3d2c013c3cd5fe3c3c5428283b012017172121171720303d2a1c2f1d1d2f1c;
0x1c1c2f1c3d2a9a262626053c1722221818202018293d1c2f1c1c2f1c3d2a793c14032828673c3cd5fe3c3c5428283b012017172121171720303d2a1c2f1d1d2f;
0x262601280322221818202018293d1c2f1c1c2f1c3d2a9a26262601280322221818202018293d1c2f1c1c2f1c3d2a9a26262601280322221818202018293d1c2f;
0x6b005d004f004b00470043003f003b002f002300150007000300140305038eff7e001d00003c8c2626260d340322221818202018293d1c2f1c1c2f1c3d2a9a26;
0x1516163233363425262223060614151616323336340723153325231533010000df00db00d700d300cf00cb00bf00b300a500970093008f008b00870083007700;
0x26222306061415161632333634052315332523153305333523053335230533352305062223263435363233161405062223263435363233161437262223060614;
0x16323336341723153325231533073335230533352305333523070622232634353632331614050622232634353632331614372622230606141516163233363425;
0x33252315330533352305333523053335230706222326343536323316140506222326343536323316142526222306061415161632333634252622230606141516;
0x3c3c2b01313120013c3ca4fe201717212117172018012017172121171720303d2a1c2f1d1d2f1c2a3de8fe3d2a1c2f1d1d2f1c2a3d5328281801282821012315;
0x28cc3c3c2b01313120013c3c442017172121171720e8fe2017172121171720303d2a1c2f1d1d2f1c2a3d18013d2a1c2f1d1d2f1c2a3d95fe2828180128281cfe;
0x128281cfe3c3c2b01313120013c3c442017172121171720e8fe201717212117172048013d2a1c2f1d1d2f1c2a3de8fe3d2a1c2f1d1d2f1c2a3dc52828e8fe28;
0x3d1c2f1c1c2f1c3d2a732828288626262626262a222218182020181822221818202018293d1c2f1c1c2f1c3d2a2a3d1c2f1c1c2f1c3d2a793c3c3c1403282818;
0x22221818202018293d1c2f1c1c2f1c3d2a2a3d1c2f1c1c2f1c3d2a732828288626262626262a222218182020181822221818202018293d1c2f1c1c2f1c3d2a2a;
0x87007b006f006b006700630057004b00470043003f003300270023001f001b000f0003005603d50280ffae0025003c3c3c8c26262626262a2222181820201818;
0x34353632331614372622230614151632333634072315330100000301ff00fb00f700f300e700db00d700d300cf00c300b700b300af00ab009f0093008f008b00;
0x26222306141516323336340723153305333523053335230706222326343536323316143726222306141516323336341733352305333523072315332506222326;
0x33363407231533053335230533352307062223263435363233161437262223061415163233363407231533053335230533352317062223263435363233161437;
0x33352305333523170622232634353632331614372622230614151632333634072315330533352305333523170622232634353632331614372622230614151632;
0x131b1b13131a2d352525343425253547262638012315330723153305333523053335231706222326343536323316143726222306141516323336340723153307;
0xff3434c41a13131b1b13131a2d352525343425253547262663fe343400013434371a13131b1b13131a2d3525253434252535fd343400ff343444262608011a13;
0x264401343400ff3434c41a13131b1b13131a2d352525343425253547262663fe343400013434371a13131b1b13131a2d35252534342525354726264401343400;
0x2e56032626ee26264401343400ff3434c41a13131b1b13131a2d35252534342525354726269d343400ff3434c91a13131b1b13131a2d35252534342525354726;
0x242424251b1b14141919142335352424353524631e03242424251b1b1414191914233535242435352484242424072e101b1b1414191914233535242435352467;
0x24251b1b14141919142335352424353524631e03242424251b1b14141919142335352424353524631e03242424251b1b14141919142335352424353524631e03;
0x630057004b00470043003f003b0037002b001f001300070003005603d60280ffae0026002e482e03242424251b1b14141919142335352424353524631e032424;
0x3336340723153337231533010000170113010f010b0107010301f700eb00df00d300cf00cb00c700c300bf00b300a7009b008f008b00870083007f007b006f00;
0x23153327231533173335230533352305333523050622232634353632331614170622232634353632331614372622230614151632333634272622230614151632;
0x23153307333523053335231733352305062223263435363233161417062223263435363233161427262223061415163233363437262223061415163233363407;
0x33352305333523173335230506222326343536323316141706222326343536323316142726222306141516323336343726222306141516323336340723153327;
0x33352317333523050622232634353632331614170622232634353632331614272622230614151632333634372622230614151632333634072315332723153307;
0xff3434f4013434d5fe1914131b1b131419ef1a13131b1b13131a2d3525253434252535ef3525253434252535472626ef26263801231533372315330533352305;
0x35472626ef2626af343400012828f43434d5fe1914131b1b131419ef1a13131b1b13131ac23525253434252535ef3525253434252535472626ef262651282800;
0x252535ef3525253434252535472626ef2626af343400012828f43434d5fe1914131b1b131419ef1a13131b1b13131ac23525253434252535ef35252534342525;
0x1423353524243535242435352424353524672e2e2e56032626ef262662fe343400012828f43434d5fe1914131b1b131419ef1a13131b1b13131ac23525253434;
0x1e752424242424251b1b1414191914141b1b141419191423353524243535242435352424353524631e1e1e752424242424251b1b1414191914141b1b14141919;
0x19191423353524243535242435352424353524631e1e1e752424242424251b1b1414191914141b1b141419191423353524243535242435352424353524631e1e;
0x6f006b00670063005f005b005700530047003b002f00230017000b0007000300e4024e03f6ff36002a002e2e2e792424242424251b1b1414191914141b1b1414;
0x332723153325231533130000370133012f012b01270123011f011b010f010301f700eb00df00d300cf00cb00c700c300bf00bb00b700ab009f00930087007b00;
0x14070622232634353632331614070622232634353632331614252622230614151632333634272622230614151632333634252622230614151632333634052315;
0x34252622230614151632333634272622230614151632333634172315332723153327231533053335230733352305333523053335230506222326343536323316;
0x33073335230533352305333523053335230506222326343536323316140506222326343536323316140706222326343536323316142726222306141516323336;
0x36323316140706222326343536323316143726222306141516323336343726222306141516323336342526222306141516323336340523153325231533372315;
0x253434252535cafe2626f02626df012626c023153325231533272315330733352305333523073335230533352317062223263435363233161405062223263435;
0x2828f02828e40134341cfd3434a8021a13131b1b13131aef1914131b1b131419f01914131b1b1314191d013525253434252535f03525253434252535df013525;
0x131b1b131419df011a13131b1b13131aef1914131b1b131419c33525253434252535df013525253434252535ef3525253434252535a82626ef2626f026264101;
0x131b1b1314192d3525253434252535ef352525343425253521fe35252534342525359801262621fe2626f026269f2828e40134341cfd3434f0012828d9fe1914;
0x3535242435352424353524672e2e2e2e2ee4022626df012626ef26269f2828e4013434f4282810fe3434c91914131b1b131419df011a13131b1b13131aef1914;
0x24243535242435352424353524631e1e1e1e1e7524242424242424251b1b1414191914141b1b1414191914141b1b141419191423353524243535242435352424;
0x353524243535242435352424353524631e1e1e1e1e7524242424242424251b1b1414191914141b1b1414191914141b1b14141919142335352424353524243535;
0x2700230013000300ad021f03f5ff640007002e2e2e2e2e7524242424242424251b1b1414191914141b1b1414191914141b1b1414191914233535242435352424;
0x4646a00123153303333523053335230533352307060622232626343536363233161614372626222306061415161632333636340723153301000033002f002b00;
0x3b24243b23233b24355532325535355532325535df7dad024646678b8be8fe78784302787864223a25233c23233c23253a2240345835355934345935355834a0;
0x16323336340523153325231533010000570053004f004b00470043003f003b002f002300150007000300f7010503ab007e000d007d00ff3f3f3f3f3f423b2424;
0x23053335230533352305333523053335230506222326343536323316140506222326343536323316142726222306061415161632333634252622230606141516;
0x3ca4fe201717212117172018012017172121171720e83d2a1c2f1d1d2f1c2a3d18013d2a1c2f1d1d2f1c2a3d95fe282818012828210123153325231533053335;
0x18182020181822221818202018293d1c2f1c1c2f1c3d2a2a3d1c2f1c1c2f1c3d2a73333333f701282818012828b6fe3c3c17013c3c4ffe3c3c2b01313120013c;
0x81007d007900750071006500570053004f004b0047003b002d002900250021001d0011000300140375028eff0e011300333333862626262626262626262a2222;
0x14372622230606141516163233363407231533073335230733352305333523070622232634353632331614372622230606141516163233363407231533010000;
0x33352307333523053335230706222326343536323316143726222306061415161632333634072315330733352307333523053335230706222326343536323316;
0x3c3c442017172121171720303d2a1c2f1d1d2f1c2a3d532828333c3c913c3c2b013c3c442017172121171720303d2a1c2f1d1d2f1c2a3d532828b10123153307;
0x22221818202018293d1c2f1c1c2f1c3d2a793c14032828333c3c913c3c2b013c3c442017172121171720303d2a1c2f1d1d2f1c2a3d532828333c3c913c3c2b01;
0x7e0018003c8c26262626262a22221818202018293d1c2f1c1c2f1c3d2a73288626262626262a22221818202018293d1c2f1c1c2f1c3d2a73288626262626262a;
0x23153325231533010000a700a3009f009b00970093008f008b007f0073006500570053004f004b00470043003f003b002f0023001500070003008d0205032300;
0x33352305333523053335230506222326343536323316140506222326343536323316143726222306061415161632333634252622230606141516163233363407;
0x34353632331614050622232634353632331614272622230606141516163233363425262223060614151616323336340723153325231533073335230533352305;
0x303d2a1c2f1d1d2f1c2a3de8fe3d2a1c2f1d1d2f1c2a3d5328281801282821012315332523153305333523053335230533352305333523053335230506222326;
0x1d1d2f1c2a3d18013d2a1c2f1d1d2f1c2a3d532828e8fe2828323c3c17013c3c4ffe3c3c2b01313120013c3ca4fe201717212117172018012017172121171720;
0x2f1c1c2f1c3d2a793c3c3c8d02282818012828b6fe3c3c17013c3c4ffe3c3c2b01313120013c3ca4fe201717212117172018012017172121171720e83d2a1c2f;
0x18293d1c2f1c1c2f1c3d2a2a3d1c2f1c1c2f1c3d2a73282828862626262626262626262a222218182020181822221818202018293d1c2f1c1c2f1c3d2a2a3d1c;
0x570053004f004b0047003b002d002900250021001d0011000300140305038eff7e002000343434862626262626262626262a2222181820201818222218182020;
0x3632331614372622230606141516163233363407231533010000d900d500d100cd00c900c500b900ab00a700a3009f009b008f0081007d007900750071006500;
0x33352307333523053335233723153307062223263435363233161437262223060614151616323336340533352307333523073335230723153325062223263435;
0x34353632331614372622230606141516163233363405333523053335231733352327231533050622232634353632331614372622230606141516163233363405;
0x33173335230533352317333523272315330506222326343536323316143726222306061415161632333634053335230733352307333523252315330706222326;
0xb92828f52017172121171720303d2a1c2f1d1d2f1c2a3d2c013c3c9a3c3c913c3c5428283b012017172121171720303d2a1c2f1d1d2f1c2a3d53282821012315;
0x17172121171720303d2a1c2f1d1d2f1c2a3d2c013c3cd5fe3c3c913c3ce528283b012017172121171720303d2a1c2f1d1d2f1c2a3d63fe3c3c9a3c3c2b013c3c;
0x1c2f1c1c2f1c3d2a793c14032828673c3cd5fe3c3c913c3ce528283b012017172121171720303d2a1c2f1d1d2f1c2a3df4fe3c3c913c3c9a3c3ce4012828f520;
0x1280322221818202018293d1c2f1c1c2f1c3d2a9a262626262601280322221818202018293d1c2f1c1c2f1c3d2a9a2626262626053c1722221818202018293d;
0x7e002300003c8c26262626260d340322221818202018293d1c2f1c1c2f1c3d2a9a262626262601280322221818202018293d1c2f1c1c2f1c3d2a9a2626262626;
0xdf00db00cf00c300b500a700a3009f009b00970093008f008b007f0073006500570053004f004b00470043003f003b002f002300150007000300140305038eff;
0x14050622232634353632331614372622230606141516163233363425262223060614151616323336340723153325231533010000f700f300ef00eb00e700e300;
0x23060614151616323336342526222306061415161632333634052315332523153317333523053335230533352305333523053335231706222326343536323316;
0x6141516163233363405231533252315331733352305333523053335230533352317333523070622232634353632331614050622232634353632331614272622;
0x33053335230533352305333523053335230533352305062223263435363233161405062223263435363233161427262223060614151616323336342526222306;
0x13c3ce9fe3c3c55201717212117172018012017172121171720303d2a1c2f1d1d2f1c2a3de8fe3d2a1c2f1d1d2f1c2a3d532828180128282101231533252315;
0x31313c201717212117172018012017172121171720e83d2a1c2f1d1d2f1c2a3d18013d2a1c2f1d1d2f1c2a3d95fe282818012828673c3ce0fe3131d5fe3c3cb1;
0x1717212117172018012017172121171720e83d2a1c2f1d1d2f1c2a3d18013d2a1c2f1d1d2f1c2a3d95fe282818012828673c3cb5fd3c3cb1013c3ce9fe3c3c91;
0x181822221818202018293d1c2f1c1c2f1c3d2a2a3d1c2f1c1c2f1c3d2a793c3c3c1403282818012828b6fe3c3c17013c3c4ffe3c3c2b01313120013c3ca4fe20;
0x262626262626262a222218182020181822221818202018293d1c2f1c1c2f1c3d2a2a3d1c2f1c1c2f1c3d2a73282828862626262626262626262a222218182020;
0xd50280ffae002c003c3c3c8c2626262626262626262a222218182020181822221818202018293d1c2f1c1c2f1c3d2a2a3d1c2f1c1c2f1c3d2a73282828862626;
0xcb00c700c300bf00bb00af00a3009f009b009700930087007b00770073006f006b005f0053004f004b004700430037002b00270023001f001b000f0003005603;
0x33352307231533250622232634353632331614372622230614151632333634072315330100001f011b01170113010f010b01ff00f300ef00eb00e700e300d700;
0x33161437262223061415163233363407231533053335230733352305333523070622232634353632331614372622230614151632333634173335230533352317;
0x23153305333523053335230733352317062223263435363233161437262223061415163233363407231533173335230733352305333523070622232634353632;
0x6222326343536323316143726222306141516323336340723153317333523073335230533352307062223263435363233161437262223061415163233363407;
0x26263801231533072315330533352305333523173335231706222326343536323316143726222306141516323336340723153305333523173335230533352317;
0x2626e5fe343482343400013434371a13131b1b13131a2d3525253434252535fd343400ff34347d3434c1262608011a13131b1b13131a2d352525343425253547;
0x47262663fe3434000134347e3434471a13131b1b13131a2d3525253434252535472626c134347d3434000134343c1a13131b1b13131a2d352525343425253547;
0x35472626e5fe34347e343400ff3434c91a13131b1b13131a2d3525253434252535472626c134347d3434000134343c1a13131b1b13131a2d3525253434252535;
0x353524842424242424072e101b1b14141919142335352424353524672e56032626ee26264401343400ff34347d3434471a13131b1b13131a2d35252534342525;
0x242424251b1b14141919142335352424353524631e032424242424251b1b14141919142335352424353524631e032424242424251b1b14141919142335352424;
0x1919142335352424353524631e032424242424251b1b14141919142335352424353524631e032424242424251b1b14141919142335352424353524631e032424;
0x8f008b008700830077006b005f0053004f004b00470043003f003b0037002b001f001300070003005603d60280ffae002e002e482e032424242424251b1b1414;
0x340523153337231533010000370133012f012b01270123011f011b010f010301f700eb00e700e300df00db00d700d300cf00c300b700ab009f009b0097009300;
0x23073335230533352317333523053335230506222326343536323316141706222326343536323316142726222306141516323336343726222306141516323336;
0x23173335230506222326343536323316141706222326343536323316142726222306141516323336343726222306141516323336340723153327231533173335;
0x36323316141706222326343536323316142726222306141516323336343726222306141516323336340723153327231533073335230733352305333523173335;
0x36323316142726222306141516323336343726222306141516323336340723153327231533073335230733352305333523173335231733352305062223263435;
0xef3525253434252535cafe2626ef2626380123153337231533053335230733352305333523173335231733352305062223263435363233161417062223263435;
0x34252535ef3525253434252535472626ef2626c2343471282800ff343482343472013434d5fe1914131b1b131419ef1a13131b1b13131ac23525253434252535;
0xc23525253434252535ef3525253434252535472626ef26262d343482343400012828713434833434d5fe1914131b1b131419ef1a13131b1b13131ac235252534;
0x1b1b13131ac23525253434252535ef3525253434252535472626ef26262d343482343400012828713434833434d5fe1914131b1b131419ef1a13131b1b13131a;
0x1b141419191423353524243535242435352424353524672e2e2e56032626ef2626e4fe343482343400012828713434833434d5fe1914131b1b131419ef1a1313;
0x2424242424242424251b1b1414191914141b1b141419191423353524243535242435352424353524631e1e1e75242424242424242424251b1b1414191914141b;
0x243535242435352424353524631e1e1e75242424242424242424251b1b1414191914141b1b141419191423353524243535242435352424353524631e1e1e7524;
0x5700530047003b002f00230017000b0007000300e4024e03f6ff36003300002e2e2e79242424242424242424251b1b1414191914141b1b141419191423353524;
0x3701330127011b010f010301f700eb00e700e300df00db00d700d300cf00cb00c700c300b700ab009f00930087007b00770073006f006b00670063005f005b00;
0x141516323336342726222306141516323336342526222306141516323336340523153327231533252315331300005b01570153014f014b01470143013f013b01;
0x33352305333523053335230733352307333523053335231706222326343536323316140706222326343536323316140706222326343536323316142526222306;
0x6222326343536323316142726222306141516323336342526222306141516323336342726222306141516323336341723153327231533272315330533352305;
0x23153327231533252315330533352307333523053335230533352305333523053335231733352305062223263435363233161405062223263435363233161407;
0x33161405062223263435363233161407062223263435363233161437262223061415163233363437262223061415163233363425262223061415163233363417;
0x34252535cafe2626f02626df012626c0231533252315332723153305333523173335230533352307333523073335230533352305333523070622232634353632;
0x3434f03434823434f0012828b81a13131b1b13131aef1914131b1b131419f01914131b1b1314191d013525253434252535f03525253434252535df0135252534;
0x1b13131aef1914131b1b131419c33525253434252535df013525253434252535ef3525253434252535a82626ef2626f02626b20134349ffe2828e40134348efe;
0x253521fe3525253434252535a92626f02626df01262672fe28287e3434620234348efe34348efe3434f001282871343468fe1914131b1b131419df011a13131b;
0x2828e401343483343471282810fe343472013434a91914131b1b131419df011a13131b1b13131aef1914131b1b1314192d3525253434252535ef352525343425;
0x1914141b1b1414191914141b1b1414191914233535242435352424353524243535242435352424353524672e2e2e2e2ee4022626df012626ef2626e3fe34347e;
0x1b1414191914141b1b1414191914233535242435352424353524243535242435352424353524631e1e1e1e1e7524242424242424242424242424251b1b141419;
0x1914141b1b1414191914233535242435352424353524243535242435352424353524631e1e1e1e1e7524242424242424242424242424251b1b1414191914141b;
0x373317372733352313352301000021001e001b005303ec02000064000300002e2e2e2e2e7524242424242424242424242424251b1b1414191914141b1b141419;
0x3f572c83832c573f4e013f04016d3768fe376deb5284468452ef5235d05a2d8204832c59cf3552ef530133032103333313231123112313352315132315330717;
0x37363233161415020e14153233363627070622233435023e343526222306060100004300210031033401100164000200f6fe0a01b2fe91026ffd4e013f3fb2fe;
0x240e341a0b162d0a0b15161d16471931102405160f12161d1639240e341a340137363233161415020e14153233363627070622233435023e3435262223060613;
0x1524070d100912151c132321050796fe04040b0a070d141e1840131524070d100912151c13232105075202162d0a0b15161d16471931102405160f12161d1639;
0x96966c02233533033533153335333523353335233523152335231523153315231533150100001f001b00200302030000640002000004040b0a070d141e184013;
0x36323316161415060627262500004e00420036002a03e201f6ff6400030000de19fecacaca3fde3ffafafafa3fde3fca2003e6e6e6e6469696969646e6469696;
0x2223061415163233363411262223061415163233363403171607060614151616323336362707062223263435023e17163727262637363435022e222306061737;
0x1219191212191912121919121219b342382a4f331f493d366024321d47262c312a4425320f3e092b1f31481f323b1d28692d2f224f24112d2039294354a20126;
0x1219191250fe19191212191912490116302c60673924432b37232820232d2f295052283d4b05335a26376e39303b210c302d2b26230f26242b562e3b19e91912;
0x464833213822980115151616323336363435022e3533352311231123153315373232331614150622232626343501000026002a03d60100006400010000191912;
0x70003002003d6010000640002000d2e492b284c38324a2e07343f5a01a6fe3f6b01413b3a381c2f1d0e7b0232543333543227412578784682820519062b;
0xe84f319292314bd0465c4e02373307173727071723112311070100000d0037034e02000064000100bb0245fd653fe102469672018efed6011123110721352101;
0x8d3721374423282e4b1f30633546c1013537363635032e0717161607060611231101000013002003c101ffff64000100005d45319292313e82026ffd5ced0260;
0x323336363435262622230606272626222323020e140100003100270019009501b20337006400030000a2146f500d3340421b3525542f364f0c3d02dffc200353;
0x401d1a141a1d1f1814181f71fd58020837383337151537331a270e11486c465c43694825b203373636323333021e173632333316141506222323263405211716;
0x30000005e000000090401000300ba000f000000002c503434502c080e0e15130a0a1322161c1724161a2a1907063156363252602d4801093c5c395c395c3c09;
0x90401000300080168000500090401000300d4003400040009040100030090004400030009040100030082000e0002000904010003005e002400010009040100;
0x3e000b00090401000300340242000a000904010003000c0228000900090401000300e2012a0008000904010003009e014400070009040100030070012e000600;
0x310030003200200074006800670069007200790070006f004300860534000e00090401000300f00296020d00090401000300b4023c000c000904010003007602;
0x6500760072006500730065005200200073007400680067006900520020006c006c00410020002e0063006e004900200065006c0067006f006f00470020003700;
0x3000300030002e003200720061006c007500670065005200420020007200610065006e0069004c00200073006e006100530020006f0074006f004e002e006400;
0x74006f004e00720061006c0075006700650052002d0042007200610065006e0069004c0073006e00610053006f0074006f004e003b0047004f004f0047003b00;
0x320020006e006f0069007300720065005600720061006c0075006700650052002000420020007200610065006e0069004c00200073006e006100530020006f00;
0x39003a00350031003900300037003100300032003a0065006300720075006f0073002d006f0074006f006e003b0047004f004f0047003b003000300030002e00;
0x6c0075006700650052002d0042007200610065006e0069004c0073006e00610053006f0074006f004e0030006300370038003300330039003900660065003000;
0x200065006c0067006f006f004700200066006f0020006b00720061006d00650064006100720074002000610020007300690020006f0074006f004e0072006100;
0x7000790074006f006e006f004d002e0063006e004900200067006e006900670061006d004900200065007000790074006f006e006f004d002e0063006e004900;
0x7000790074006f006e006f004d002000790062002000640065006e00670069007300650044006d0061006500540020006e006700690073006500440020006500;
0x2e0065006c0067006f006f0067002e007700770077002f002f003a0070007400740068002e006d0061006500740020006e006700690073006500640020006500;
0x65007000790074006f006e006f006d002e007700770077002f002f003a0070007400740068002f006f0074006f006e002f007400650067002f006d006f006300;
0x7300690020006500720061007700740066006f005300200074006e006f004600200073006900680054006f00690064007500740073002f006d006f0063002e00;
0x6e006f00460020006e00650070004f0020004c0049005300200065006800740020007200650064006e00750020006400650073006e006500630069006c002000;
0x6e006f0046002000730069006800540020002e0031002e00310020006e006f006900730072006500560020002c00650073006e006500630069004c0020007400;
0x20006e00610020006e006f0020006400650074007500620069007200740073006900640020007300690020006500720061007700740066006f00530020007400;
0x4500490054004e00410052005200410057002000540055004f00480054004900570020002c005300490053004100420020002200530049002000530041002200;
0x74006900650020002c0044004e0049004b00200059004e004100200046004f00200053004e004f0049005400490044004e004f004300200052004f0020005300;
0x2000650068007400200065006500530020002e006400650069006c0070006d006900200072006f00200073007300650072007000780065002000720065006800;
0x700073002000650068007400200072006f0066002000650073006e006500630069004c00200074006e006f00460020006e00650070004f0020004c0049005300;
0x64006e006100200073006e006f0069007300730069006d0072006500700020002c00650067006100750067006e0061006c002000630069006600690063006500;
0x20006500730075002000720075006f007900200067006e0069006e007200650076006f006700200073006e006f00690074006100740069006d0069006c002000;
0x7200630073002f002f003a0070007400740068002e006500720061007700740066006f005300200074006e006f00460020007300690068007400200066006f00;
0x32009cff00000000000002004c0046004f002f00670072006f002e006c00690073002e007300740070006900;
0x2d022c022b022a0229022802270226022502240223022202210220021f021e021d021c021b021a02190218021702160215021402040113021202110200001101;
0x4d024c024b024a0249024802470246024502440243024202410240023f023e023d023c023b023a0239023802370236023502340233023202310230022f022e02;
0x6d026c026b026a0269026802670266026502640263026202610260025f025e025d025c025b025a0259025802570256025502540253025202510250024f024e02;
0x8d028c028b028a0289028802870286028502840283028202810280027f027e027d027c027b027a0279027802770276027502740273027202710270026f026e02;
0xad02ac02ab02aa02a902a802a702a602a502a402a302a202a102a0029f029e029d029c029b029a0299029802970296029502940293029202910290028f028e02;
0xcd02cc02cb02ca02c902c802c702c602c502c402c302c202c102c002bf02be02bd02bc02bb02ba02b902b802b702b602b502b402b302b202b102b002af02ae02;
0xed02ec02eb02ea02e902e802e702e602e502e402e302e202e102e002df02de02dd02dc02db02da02d902d802d702d602d502d402d302d202d102d002cf02ce02;
0xd030c030b030a030903080307030603050304030303020301030003ff02fe02fd02fc02fb02fa02f902f802f702f602f502f402f302f202f102f002ef02ee02;
0x6e75083030303031696e750830413030696e75075243024c4c554e041f031e031d031c031b031a0319031803170316031503140313031203110310030f030e03;
0x696e75083730303031696e75083630303031696e75083530303031696e75083430303031696e75083330303031696e75083230303031696e7508313030303169;
0x31696e75084630303031696e75084530303031696e75084430303031696e75084230303031696e75084130303031696e75083930303031696e75083830303031;
0x3031696e75083631303031696e75083531303031696e75083431303031696e75083331303031696e75083231303031696e75083131303031696e750830313030;
0x303031696e75084431303031696e75084331303031696e75084231303031696e75084131303031696e75083931303031696e75083831303031696e7508373130;
0x32303031696e75083432303031696e75083332303031696e75083232303031696e75083132303031696e75083032303031696e75084631303031696e75084531;
0x4432303031696e75084332303031696e75084232303031696e75084132303031696e75083932303031696e75083832303031696e75083632303031696e750835;
0x83433303031696e75083333303031696e75083233303031696e75083133303031696e75083033303031696e75084632303031696e75084532303031696e7508;
0x75084333303031696e75084133303031696e75083933303031696e75083833303031696e75083733303031696e75083633303031696e75083533303031696e75;
0x6e75083434303031696e75083334303031696e75083234303031696e75083134303031696e75083034303031696e75084633303031696e75084433303031696e;
0x696e75084234303031696e75084134303031696e75083934303031696e75083834303031696e75083734303031696e75083634303031696e7508353430303169;
0x31696e75083435303031696e75083335303031696e75083235303031696e75083135303031696e75083035303031696e75084434303031696e75084334303031;
0x3031696e75084235303031696e75084135303031696e75083935303031696e75083835303031696e75083735303031696e75083635303031696e750835353030;
0x303031696e75083438303031696e75083338303031696e75083238303031696e75083138303031696e75083038303031696e75084435303031696e7508433530;
0x38303031696e75084238303031696e75084138303031696e75083938303031696e75083838303031696e75083738303031696e75083638303031696e75083538;
0x3339303031696e75083239303031696e75083139303031696e75083039303031696e75084638303031696e75084538303031696e75084438303031696e750843;
0x84139303031696e75083939303031696e75083839303031696e75083739303031696e75083639303031696e75083539303031696e75083439303031696e7508;
0x75083141303031696e75083041303031696e75084639303031696e75084539303031696e75084439303031696e75084339303031696e75084239303031696e75;
0x6e75083841303031696e75083741303031696e75083641303031696e75083541303031696e75083441303031696e75083341303031696e75083241303031696e;
0x696e75084641303031696e75084541303031696e75084441303031696e75084341303031696e75084241303031696e75084141303031696e7508394130303169;
0x31696e75083642303031696e75083542303031696e75083442303031696e75083342303031696e75083242303031696e75083142303031696e75083042303031;
0x3031696e75084442303031696e75084342303031696e75084242303031696e75084142303031696e75083942303031696e75083842303031696e750837423030;
0x303031696e75083443303031696e75083343303031696e75083243303031696e75083143303031696e75083043303031696e75084642303031696e7508454230;
0x43303031696e75084243303031696e75084143303031696e75083943303031696e75083843303031696e75083743303031696e75083643303031696e75083543;
0x3344303031696e75083244303031696e75083144303031696e75083044303031696e75084643303031696e75084543303031696e75084443303031696e750843;
0x84144303031696e75083944303031696e75083844303031696e75083744303031696e75083644303031696e75083544303031696e75083444303031696e7508;
0x75083145303031696e75083045303031696e75084644303031696e75084544303031696e75084444303031696e75084344303031696e75084244303031696e75;
0x6e75083845303031696e75083745303031696e75083645303031696e75083545303031696e75083445303031696e75083345303031696e75083245303031696e;
0x696e75084645303031696e75084545303031696e75084445303031696e75084345303031696e75084245303031696e75084145303031696e7508394530303169;
0x31696e75083646303031696e75083546303031696e75083446303031696e75083346303031696e75083246303031696e75083146303031696e75083046303031;
0x3031696e75083230313031696e75083130313031696e75083030313031696e75084146303031696e75083946303031696e75083846303031696e750837463030;
0x313031696e75084430313031696e75084330313031696e75084230313031696e75084130313031696e75083930313031696e75083830313031696e7508373031;
0x31313031696e75083431313031696e75083331313031696e75083231313031696e75083131313031696e75083031313031696e75084630313031696e75084530;
0x4331313031696e75084231313031696e75084131313031696e75083931313031696e75083831313031696e75083731313031696e75083631313031696e750835;
0x83332313031696e75083232313031696e75083132313031696e75083032313031696e75084631313031696e75084531313031696e75084431313031696e7508;
0x75084132313031696e75083932313031696e75083832313031696e75083732313031696e75083632313031696e75083532313031696e75083432313031696e75;
0x6e75083133313031696e75083033313031696e75084632313031696e75084532313031696e75084432313031696e75084332313031696e75084232313031696e;
0x696e75084233313031696e75084133313031696e75083933313031696e75083833313031696e75083733313031696e75083333313031696e7508323331303169;
0x63030303031750630323030696e750744303030696e750730303030696e75074633313031696e75084533313031696e75084433313031696e75084333313031;
0x75063930303031750638303030317506373030303175063630303031750635303030317506343030303175063330303031750632303030317506313030303175;
0x31750633313030317506323130303175063131303031750630313030317506463030303175064530303031750644303030317506423030303175064130303031;
0x30317506433130303175064231303031750641313030317506393130303175063831303031750637313030317506363130303175063531303031750634313030;
0x30303175063532303031750634323030317506333230303175063232303031750631323030317506303230303175064631303031750645313030317506443130;
0x33303031750646323030317506453230303175064432303031750643323030317506423230303175064132303031750639323030317506383230303175063632;
0x39333030317506383330303175063733303031750636333030317506353330303175063433303031750633333030317506323330303175063133303031750630;
0x6343430303175063334303031750632343030317506313430303175063034303031750646333030317506443330303175064333303031750641333030317506;
0x75064434303031750643343030317506423430303175064134303031750639343030317506383430303175063734303031750636343030317506353430303175;
0x31750638353030317506373530303175063635303031750635353030317506343530303175063335303031750632353030317506313530303175063035303031;
0x30317506333830303175063238303031750631383030317506303830303175064435303031750643353030317506423530303175064135303031750639353030;
0x30303175064338303031750642383030317506413830303175063938303031750638383030317506373830303175063638303031750635383030317506343830;
0x39303031750635393030317506343930303175063339303031750632393030317506313930303175063039303031750646383030317506453830303175064438;
0x46393030317506453930303175064439303031750643393030317506423930303175064139303031750639393030317506383930303175063739303031750636;
0x6384130303175063741303031750636413030317506354130303175063441303031750633413030317506324130303175063141303031750630413030317506;
0x75063142303031750630423030317506464130303175064541303031750644413030317506434130303175064241303031750641413030317506394130303175;
0x31750641423030317506394230303175063842303031750637423030317506364230303175063542303031750634423030317506334230303175063242303031;
0x30317506334330303175063243303031750631433030317506304330303175064642303031750645423030317506444230303175064342303031750642423030;
0x30303175064343303031750642433030317506414330303175063943303031750638433030317506374330303175063643303031750635433030317506344330;
0x44303031750635443030317506344430303175063344303031750632443030317506314430303175063044303031750646433030317506454330303175064443;
0x46443030317506454430303175064444303031750643443030317506424430303175064144303031750639443030317506384430303175063744303031750636;
0x6384530303175063745303031750636453030317506354530303175063445303031750633453030317506324530303175063145303031750630453030317506;
0x75063146303031750630463030317506464530303175064545303031750644453030317506434530303175064245303031750641453030317506394530303175;
0x31750641463030317506394630303175063846303031750637463030317506364630303175063546303031750634463030317506334630303175063246303031;
0x30317506433031303175064230313031750641303130317506393031303175063830313031750637303130317506323031303175063130313031750630303130;
0x31303175063531313031750634313130317506333131303175063231313031750631313130317506303131303175064630313031750645303130317506443031;
0x31313031750645313130317506443131303175064331313031750642313130317506413131303175063931313031750638313130317506373131303175063631;
0x38323130317506373231303175063632313031750635323130317506343231303175063332313031750632323130317506313231303175063032313031750646;
0x6313331303175063033313031750646323130317506453231303175064432313031750643323130317506423231303175064132313031750639323130317506;
0x75064433313031750643333130317506423331303175064133313031750639333130317506383331303175063733313031750633333130317506323331303175;
0x463331303175064533313031].
(** tests/pdf.rs:131: the 173811 bytes of tests/expected.pdf *)
Definition expected_pdf : bytes := unpack 173811 [
0x3931205220302037315b207364694b2f203220746e756f432f2073656761502f20657079542f203c3c0a6a626f203020310afbaeedb5250a352e312d46445025;
0x203e3e205220302035312032662f205220302031312031662f2052203020372030662f203c3c20746e6f462f203c3c2073656372756f7365522f205d52203020;
0xa6a626f203020320a6a626f646e650a3e3e203e3e203e3e203e3e20352e302061632f20352e302041432f203c3c2030612f203c3c206574617453477478452f;
0x56282072656375646f72502f203c3c0a6a626f203020330a6a626f646e650a3e3e2052203020312073656761502f20676f6c617461432f20657079542f203c3c;
0xa6a626f203020340a6a626f646e650a3e3e20293e726f746369762f6e697061536e6f6d69532f6d6f632e6275687469672f2f3a73707474683c20726f746369;
0x63f45fb4322f534f1000040000011100000001000a6d61657274730a3e3e203233393536206874676e654c2f20323339353620316874676e654c2f203c3c;
0xc4f1b4e76d677066fc010000fc1e0000391dd3ff20747663580300006cb10000a0e8c3a470616d6336000000c8eb0000975e8ad1544c43505600000070eb;
0x100d0a284dd646165684815000000ec00000e21f034786d64687e8a0000ec260000cf41740c66796c670c0000004801010007000700707361678b0000006026;
0x3dd2cbf361636f6c8a2d0000a0bd000099d552dc6e72656b30040000c4b40000b28ec60978746d68240000004ceb00006f08451061656868360000005401;
0xf1073b706572708e020000f4b80000bb2f5ab474736f70df1d00001c010000b5c8bcd9656d616e200000002ceb00003a0647057078616d1a02000084bb;
0x1003a00130003000000000001005f00050002000000000001003a001300010000000000010000003a0000000000000001000e011600000068050000f820;
0xb000000000001006c080e000800000000000100ad00300007000000000001004d001700060000000000010064000c0005000000000001003a00130004000000;
0xf0a26000300090401000300590a0a0002000904010003000f0a260001000904010003009b0974000000090401000300700013090d0000000000010083091800;
0x1000300731a1c000800090401000300f50a60000700090401000300350a2e000600090401000300630a180005000904010003000f0a26000400090401000300;
0x6952206c6c41202e636e49202c6d616572747374694220796220333030322029632820746867697279706f437b0a26120d00090401000300a11c30000b000904;
0x20657361656c65526e616d6f522d736e6153617265566d6165727473746942736e61532061726556206d61657274737469422e64657672657365522073746867;
0xd2e646576726573655220737468676952206c6c410a0d2e636e49202c6d616572747374694220796220333030322029632820746867697279706f4330312e31;
0x206e6f697373696d7265500a0d0a0d2e636e49202c6d616572747374694220666f206b72616d656461727420612073692061726556206d61657274737469420a;
0x706f63206120676e696e696174626f206e6f7372657020796e61206f74202c65677261686320666f2065657266202c6465746e61726720796265726568207369;
0x65746169636f73736120646e6120292273746e6f4622282065736e6563696c207369687420676e69796e61706d6f6363612073746e6f662065687420666f2079;
0x696420646e6120656375646f72706572206f74202c29226572617774666f5320746e6f462220656874282073656c6966206e6f697461746e656d75636f642064;
0x67697220656874206e6f69746174696d696c2074756f6874697720676e6964756c636e69202c6572617774666f5320746e6f4620656874206574756269727473;
0x736569706f63206c6c657320726f2f646e61202c65747562697274736964202c6873696c627570202c656772656d202c79706f63202c657375206f7420737468;
0x6f5320746e6f4620656874206d6f6877206f7420736e6f737265702074696d726570206f7420646e61202c6572617774666f5320746e6f462065687420666f20;
0x6e6f697469646e6f6320676e69776f6c6c6f6620656874206f74207463656a627573202c6f73206f64206f742064656873696e72756620736920657261777466;
0x7373696d726570207369687420646e612073656369746f6e206b72616d656461727420646e6120746867697279706f632065766f6261206568540a0d0a0d3a73;
0x65687420666f2065726f6d20726f20656e6f20666f20736569706f63206c6c61206e6920646564756c636e69206562206c6c61687320656369746f6e206e6f69;
0x202c6465696669646f6d2065622079616d206572617774666f5320746e6f46206568540a0d0a0d2e736563616665707974206572617774666f5320746e6f4620;
0x726f20736870796c6720666f20736e6769736564206568742072616c75636974726170206e6920646e61202c6f7420646564646120726f202c64657265746c61;
0x6f20736870796c67206c616e6f69746964646120646e61206465696669646f6d2065622079616d2073746e6f4620656874206e69207372657463617261686320;
0x6572206572612073746e6f662065687420666920796c6e6f202c73746e6f4620656874206f742064656464612065622079616d20737265746361726168632072;
0x687420726f20226d616572747374694222207364726f77206568742072656874696520676e696e6961746e6f6320746f6e2073656d616e206f742064656d616e;
0x6574786520656874206f742064696f7620646e61206c6c756e2073656d6f6365622065736e6563694c20736968540a0d0a0d2e2261726556222064726f772065;
0x61206465696669646f6d206e656562207361682074616874206572617774666f5320746e6f4620726f2073746e6f46206f7420656c626163696c70706120746e;
0x20746e6f46206568540a0d0a0d2e73656d616e202261726556206d61657274737469422220656874207265646e7520646574756269727473696420736920646e;
0x6f6e20747562206567616b636170206572617774666f732072656772616c206120666f207472617020736120646c6f732065622079616d206572617774666f53;
0x20646c6f732065622079616d20736563616665707974206572617774666f5320746e6f462065687420666f2065726f6d20726f20656e6f20666f2079706f6320;
0x5241572054554f48544957202c225349205341222044454449564f5250205349204552415754464f5320544e4f46204548540a0d0a0d2e666c65737469207962;
0x444554494d494c20544f4e2054554220474e4944554c434e49202c4445494c504d4920524f2053534552505845202c444e494b20594e4120464f2059544e4152;
0x2052414c55434954524150204120524f46205353454e544946202c5954494c494241544e41484352454d20464f20534549544e415252415720594e41204f5420;
0x20524f202c4b52414d4544415254202c544e45544150202c544847495259504f4320464f20544e454d45474e4952464e494e4f4e20444e412045534f50525550;
0x4e4f495441444e554f4620454d4f4e472045485420524f204d4145525453544942204c4c41485320544e455645204f4e204e49202e544847495220524548544f;
0x20474e4944554c434e49202c5954494c494241494c20524548544f20524f20534547414d4144202c4d49414c4320594e4120524f4620454c4241494c20454220;
0x4d4144204c4149544e45555145534e4f4320524f202c4c41544e454449434e49202c5443455249444e49202c4c414943455053202c4c4152454e454720594e41;
0x4953495241202c45534957524548544f20524f2054524f54202c54434152544e4f4320464f204e4f49544341204e41204e492052454854454857202c53454741;
0x524f204552415754464f5320544e4f462045485420455355204f54205954494c4942414e4920524f204553552045485420464f2054554f202c4d4f524620474e;
0x656e6961746e6f63207361207470656378450a0d0a0d2e4552415754464f5320544e4f4620454854204e492053474e494c41454420524548544f204d4f524620;
0x20646e61202c6e6f697461646e756f4620656d6f6e4720656874202c656d6f6e4720666f2073656d616e20656874202c656369746f6e2073696874206e692064;
0x6f742065736977726568746f20726f20676e697369747265766461206e69206465737520656220746f6e206c6c616873202c2e636e49206d6165727473746942;
0x77206572617774666f5320746e6f462073696874206e692073676e696c61656420726568746f20726f20657375202c656c6173206568742065746f6d6f727020;
0x20726f206e6f697461646e756f4620656d6f6e4720656874206d6f7266206e6f6974617a69726f68747561206e65747469727720726f6972702074756f687469;
0x203a746361746e6f63202c6e6f6974616d726f666e69207265687472756620726f46202e796c65766974636570736572202c2e636e49206d6165727473746942;
0x6800670069007200790070006f0043006d6f632e6d61657274737469622e7777772f2f3a707474682e67726f20746f6420656d6f6e672074612073746e6f66;
0x6c00410020002e0063006e00490020002c006d0061006500720074007300740069004200200079006200200033003000300032002000290063002800200074;
0x610072006500560020006d00610065007200740073007400690042002e0064006500760072006500730065005200200073007400680067006900520020006c;
0x65006c00650052006e0061006d006f0052002d0073006e006100530061007200650056006d006100650072007400730074006900420073006e006100530020;
0x69004200200079006200200033003000300032002000290063002800200074006800670069007200790070006f004300300031002e00310020006500730061;
0x760072006500730065005200200073007400680067006900520020006c006c0041000a000d002e0063006e00490020002c006d006100650072007400730074;
0x61006d0065006400610072007400200061002000730069002000610072006500560020006d00610065007200740073007400690042000a000d002e00640065;
0x7300730069006d007200650050000a000d000a000d002e0063006e00490020002c006d0061006500720074007300740069004200200066006f0020006b0072;
0x6300200066006f002000650065007200660020002c006400650074006e00610072006700200079006200650072006500680020007300690020006e006f0069;
0x6100200067006e0069006e0069006100740062006f0020006e006f007300720065007000200079006e00610020006f00740020002c00650067007200610068;
0x200067006e00690079006e00610070006d006f006300630061002000730074006e006f0066002000650068007400200066006f002000790070006f00630020;
0x63006f00730073006100200064006e006100200029002200730074006e006f004600220028002000650073006e006500630069006c00200073006900680074;
0x2200200065006800740028002000730065006c006900660020006e006f0069007400610074006e0065006d00750063006f0064002000640065007400610069;
0x6e006100200065006300750064006f00720070006500720020006f00740020002c00290022006500720061007700740066006f005300200074006e006f0046;
0x20002c006500720061007700740066006f005300200074006e006f004600200065006800740020006500740075006200690072007400730069006400200064;
0x65006800740020006e006f00690074006100740069006d0069006c002000740075006f006800740069007700200067006e006900640075006c0063006e0069;
0x62007500700020002c0065006700720065006d0020002c00790070006f00630020002c0065007300750020006f007400200073007400680067006900720020;
0x6f00630020006c006c0065007300200072006f002f0064006e00610020002c00650074007500620069007200740073006900640020002c006800730069006c;
0x7400200064006e00610020002c006500720061007700740066006f005300200074006e006f0046002000650068007400200066006f00200073006500690070;
0x6e006f004600200065006800740020006d006f006800770020006f007400200073006e006f0073007200650070002000740069006d0072006500700020006f;
0x6f00730020006f00640020006f0074002000640065006800730069006e0072007500660020007300690020006500720061007700740066006f005300200074;
0x690064006e006f006300200067006e00690077006f006c006c006f006600200065006800740020006f00740020007400630065006a0062007500730020002c;
0x6e006100200074006800670069007200790070006f0063002000650076006f006200610020006500680054000a000d000a000d003a0073006e006f00690074;
0x72006500700020007300690068007400200064006e0061002000730065006300690074006f006e0020006b00720061006d0065006400610072007400200064;
0x64006500640075006c0063006e00690020006500620020006c006c00610068007300200065006300690074006f006e0020006e006f0069007300730069006d;
0x66006f002000650072006f006d00200072006f00200065006e006f00200066006f00200073006500690070006f00630020006c006c00610020006e00690020;
0xd000a000d002e0073006500630061006600650070007900740020006500720061007700740066006f005300200074006e006f004600200065006800740020;
0x69006600690064006f006d002000650062002000790061006d0020006500720061007700740066006f005300200074006e006f00460020006500680054000a;
0x6e006900200064006e00610020002c006f007400200064006500640064006100200072006f0020002c00640065007200650074006c00610020002c00640065;
0x6800700079006c006700200066006f00200073006e006700690073006500640020006500680074002000720061006c00750063006900740072006100700020;
0x790061006d002000730074006e006f004600200065006800740020006e00690020007300720065007400630061007200610068006300200072006f00200073;
0x700079006c00670020006c0061006e006f00690074006900640064006100200064006e00610020006400650069006600690064006f006d0020006500620020;
0x6f0074002000640065006400640061002000650062002000790061006d0020007300720065007400630061007200610068006300200072006f002000730068;
0x720061002000730074006e006f0066002000650068007400200066006900200079006c006e006f0020002c00730074006e006f004600200065006800740020;
0x6e0069006e006900610074006e006f006300200074006f006e002000730065006d0061006e0020006f0074002000640065006d0061006e0065007200200065;
0x6f00200022006d0061006500720074007300740069004200220020007300640072006f00770020006500680074002000720065006800740069006500200067;
0x6e006500630069004c00200073006900680054000a000d000a000d002e002200610072006500560022002000640072006f0077002000650068007400200072;
0x200065006800740020006f0074002000640069006f007600200064006e00610020006c006c0075006e002000730065006d006f006300650062002000650073;
0x6f004600200072006f002000730074006e006f00460020006f007400200065006c0062006100630069006c00700070006100200074006e0065007400780065;
0x69006600690064006f006d0020006e0065006500620020007300610068002000740061006800740020006500720061007700740066006f005300200074006e;
0x200065006800740020007200650064006e007500200064006500740075006200690072007400730069006400200073006900200064006e0061002000640065;
0x460020006500680054000a000d000a000d002e00730065006d0061006e0020002200610072006500560020006d006100650072007400730074006900420022;
0x7400720061007000200073006100200064006c006f0073002000650062002000790061006d0020006500720061007700740066006f005300200074006e006f;
0x7500620020006500670061006b0063006100700020006500720061007700740066006f0073002000720065006700720061006c0020006100200066006f0020;
0x2000650068007400200066006f002000650072006f006d00200072006f00200065006e006f00200066006f002000790070006f00630020006f006e00200074;
0x73002000650062002000790061006d00200073006500630061006600650070007900740020006500720061007700740066006f005300200074006e006f0046;
0x5700540046004f005300200054004e004f00460020004500480054000a000d000a000d002e0066006c006500730074006900200079006200200064006c006f;
0x540055004f00480054004900570020002c0022005300490020005300410022002000440045004400490056004f005200500020005300490020004500520041;
0x4f002000530053004500520050005800450020002c0044004e0049004b00200059004e004100200046004f002000590054004e004100520052004100570020;
0x4d0049004c00200054004f004e002000540055004200200047004e004900440055004c0043004e00490020002c004400450049004c0050004d004900200052;
0x410048004300520045004d00200046004f00200053004500490054004e0041005200520041005700200059004e00410020004f005400200044004500540049;
0x550043004900540052004100500020004100200052004f00460020005300530045004e0054004900460020002c005900540049004c0049004200410054004e;
0x200054004e0045004d00450047004e004900520046004e0049004e004f004e00200044004e0041002000450053004f0050005200550050002000520041004c;
0x2c004b00520041004d004500440041005200540020002c0054004e00450054004100500020002c0054004800470049005200590050004f004300200046004f;
0x410048005300200054004e0045005600450020004f004e0020004e00490020002e0054004800470049005200200052004500480054004f00200052004f0020;
0x410044004e0055004f004600200045004d004f004e0047002000450048005400200052004f0020004d004100450052005400530054004900420020004c004c;
0x4100440020002c004d00490041004c004300200059004e004100200052004f004600200045004c004200410049004c0020004500420020004e004f00490054;
0x440055004c0043004e00490020002c005900540049004c0049004200410049004c00200052004500480054004f00200052004f00200053004500470041004d;
0x45005200490044004e00490020002c004c0041004900430045005000530020002c004c004100520045004e0045004700200059004e004100200047004e0049;
0x4c004100490054004e00450055005100450053004e004f004300200052004f0020002c004c00410054004e0045004400490043004e00490020002c00540043;
0x4f0020004e004f00490054004300410020004e00410020004e0049002000520045004800540045004800570020002c0053004500470041004d004100440020;
0x410020002c00450053004900570052004500480054004f00200052004f002000540052004f00540020002c00540043004100520054004e004f004300200046;
0x4900200052004f0020004500530055002000450048005400200046004f002000540055004f0020002c004d004f0052004600200047004e0049005300490052;
0x520041005700540046004f005300200054004e004f0046002000450048005400200045005300550020004f00540020005900540049004c004900420041004e;
0x200045004800540020004e0049002000530047004e0049004c00410045004400200052004500480054004f0020004d004f0052004600200052004f00200045;
0x74006e006f00630020007300610020007400700065006300780045000a000d000a000d002e004500520041005700540046004f005300200054004e004f0046;
0x2000730065006d0061006e00200065006800740020002c0065006300690074006f006e002000730069006800740020006e0069002000640065006e00690061;
0x20002c006e006f0069007400610064006e0075006f004600200065006d006f006e004700200065006800740020002c0065006d006f006e004700200066006f;
0x65006200200074006f006e0020006c006c0061006800730020002c002e0063006e00490020006d0061006500720074007300740069004200200064006e0061;
0x73006900770072006500680074006f00200072006f00200067006e0069007300690074007200650076006400610020006e0069002000640065007300750020;
0x74006f00200072006f00200065007300750020002c0065006c006100730020006500680074002000650074006f006d006f007200700020006f007400200065;
0x61007700740066006f005300200074006e006f0046002000730069006800740020006e0069002000730067006e0069006c0061006500640020007200650068;
0x690072006f00680074007500610020006e00650074007400690072007700200072006f006900720070002000740075006f0068007400690077002000650072;
0x6e006f0069007400610064006e0075006f004600200065006d006f006e004700200065006800740020006d006f007200660020006e006f006900740061007a;
0x79006c00650076006900740063006500700073006500720020002c002e0063006e00490020006d0061006500720074007300740069004200200072006f0020;
0x610074006e006f00630020002c006e006f006900740061006d0072006f0066006e00690020007200650068007400720075006600200072006f00460020002e;
0x3a0070007400740068002e00670072006f00200074006f006400200065006d006f006e0067002000740061002000730074006e006f00660020003a00740063;
0xcb00710000006600b800a6019c00aa00c100cb00cb00b8003501006d006f0063002e006d00610065007200740073007400690062002e007700770077002f002f;
0x6073901140139019c00b4005401f4000205d9000000cb0033004a010004aa03cb008700aa00d300f000a600cb002d028901cb01c300b80075008500b202a000;
0xdf000e044404bc033303e903ba007300df01b8001f00c9001202c50339055605a6055605a203330173046004cd0473043700cd04e704b8045204b4044e040004;
0x4039800d5008301ba00f000d3019e01cd00cb006f009a009a00cd05c7008f0052027b027f006f011400b8007b00a4008f00cb0000000404aa03e500aa03cd03;
0x1d0000009c00620000009c00b400a4002b02fe000a01d505000473009a008f00cd00a400c700d3006602330300007f0254038300f600cb00c100d5019e004802;
0x3901140139018f004804a80423048501db0371035c03d300a0009306ec01c301a600cb00b800d30123071406b806a40054007b007f00f005d505d505d5052d03;
0x77006600bc006600cd055202b40000007b027f00c5007b0062076004e900aa016004770200009c007b0460046004600479016606230714069a01d5058f006003;
0x54038300f6007b028f0096032d00b200ae007b006f006a0035036f0000006f007d0700009c009c002f044a07cd001d0000007b008f00890385013b01cd001006;
0xf303fef403fef5030ef60396f70332f80325f90314fa03fefbff408002b8001400007300ee04660029004403cd00f6028d018f006602e1049c008f00f6053706;
0xe3052fe2e30353e405418ae40396e50553e4e50332e603fee70342e8033ae903feea03faeb03faec0396ed0396ee03feef05418aef0325f00396f1030ef20325;
0xfed1031bd203fed3051bd2d30347d4037dd50547d4d5037dd605418ad603fed803bbd9037dda0312db03fedc0396dd0314de0332df03fee003fee1032fe203fa;
0xbc03febd03febe03febf03fec003fec103fec203fec303fec40316c5031cc6051185c603fec90332ca031ecb03fecc051ecbcc0396cd03fece03fecf03fed003;
0xfeaf03feb003feb103feb20396b303feb40325b50440b603ff405db60525b5b60480b703bbb7055db6b703feb805bbb7b803feb9052586b90311ba03febb03fe;
0xa005418aa00364a1030ea20332a3050ea2a303fea40312a503fea603fea703fea803faa905418aa90312aa0325ab0512aaab0364ac0525abac030ead0364ae03;
0xe93032894050e939403969505418a95030d9603fe97050d969703fe98030a9903109a03199b05109a9b03649c05199b9c030c9d03fe9e050c9d9e03fe9f0396;
0x30b88031489050b888903418a0525868a032e8b03fe8c052e8b8c03fe8d03258e04408f035d8f05258e8f04809003bb90055d8f9003fe9105bb909103fa9203;
0x3fe7a03257b0515547b03647c037d7d03fe7e057d7d7eff4003fe7f03fe8003fe8103118203fe830511828303fe840311850325860511858603648705258687;
0xfe6503fe6605421167037d6803fe6903536a0542116a03fe6b03216c03fe6e03fe6f03fe7003fa7103fa7203fa7303fa7403fe75030a76030c77030e7803fe79;
0x1853051001530315540342550515545503fe5603325705191657030a5803fa59050a585903fe5a03fe5b03fe5d030c5e03fa60033a6103fe6203fe6303fe6403;
0x4403964503964603fe47030d48031049050d1d4903134a0510494a03fe4b05134a4b03fe4c03104d03fe4e05104d4e03fe4f030b5003fe5105134a5103145203;
0x510363703fa380514373803fe3903fe3a030d3b030fff403c050d3b3c03123d050f3c3d03143e05123d3e03fe3f03fe40034b4103bb4203fa43052d024303fe;
0x2a0512292a03642b05252a2b03322c03092d03102e05092d2e030b2f030d30050b2f30030b3103fe32050b3132030d33031e34030b35031036050b3536031437;
0x3fe1c0542111c030d1d03641e050d1d1e03fa1f03642003122105100121030f2203fe2303fe24030b25030f26050b2526032527034128052527280312290325;
0xc0d03fe0e03640f037d10034211052d021103fe120542111203fe1303fe1403fe150319160510011603fe170519161703641803fe190542111903421a03fa1b;
0x103fe00031001032d020510010203fe03052d0203154003fe040510010403640603140703fe08052d020803fe0903100a03fe0b03160c0510010c03fe0d0516;
0x2b2b2b2b2b2b2b2b2b2b2b2b2b2b2b2b2b2b2b2b2b2b2b2b2b2b2b2b2b2b2b2b2b2b2b2b2b2b2b2b2b2b2b2b2b2b2b2b2b2b2b2b2b2b2b2b2b2b018d856401b8;
0x2b2b2b2b2b2b2b2b2b2b2b2b2b2b2b2b2b2b2b2b2b2b2b2b2b2b2b2b2b2b2b2b2b2b2b2b2b2b2b2b2b2b2b2b2b2b2b2b2b2b2b2b2b2b2b2b2b2b2b2b2b2b2b2b;
0x2b2b2b2b2b2b2b2b2b2b2b2b2b2b2b2b2b2b2b2b002b2b2b2b2b2b2b2b2b2b2b2b2b2b2b2b2b2b2b2b2b2b2b2b2b2b2b2b2b2b2b2b2b2b2b2b2b2b2b2b2b2b2b;
0x2b2b2b2b2b2b2b2b2b2b2b2b2b2b2b2b2b2b2b2b2b2b2b2b2b2b2b2b2b2b2b2b2b2b2b2b2b2b2b2b2b2b2b2b2b2b2b2b2b2b2b2b2b2b2b2b2b2b2b2b2b2b2b2b;
0x2b2b2b2b2b2b2b2b2b2b2b2b2b2b2b2b2b2b2b2b2b2b2b2b2b2b2b2b2b2b2b2b2b2b2b2b2b2b2b2b2b2b2b2b2b2b2b2b2b2b2b2b2b2b2b2b2b2b2b2b2b2b2b2b;
0xffb820790db05000b0200710202c2d2159c820585140b064492502b02c2d2159c820585140b064492502b010202c00010203040506b61d2b2b2b2b2b2b2b2b2b;
0x4460452502b02c2d21594445fdb02058504b2c2de1082503b01c05b059051b045850ffffb820790db05000b020e1232504b0082503b01c05b059051b045850ff;
0x30ecd4ecd4100031ecd4c42f0004027f050801fb0600fb040c401a0007000300a405660496fe66000200002d44452c2d21215944452502b02502b058534b2c2d;
0x32ec3cfc100a00000403010507080281048300070f40400009000300d5050002000035010200290672f2f80e0796fee5fc1b0373fc0004662111212511211113;
0xd505fefe15a214cbcbcb3501032303113311231533255d030b500b200b00b65938371138c0ff0a000a00010040000a00bd58540bb04b0130ccfce42f00313939;
0xbd585b5413b04b5412b04b013032ec3cf4100031ecdcfcfc100804020500060504088100048401050f404d0007000300d505e902aa03c500020065019bfe71fd;
0x9e000200002b02d5fd2b02d5fdd505aa2402aa6f0111231121112311015d0709bf09a0097009600950094009300f405938371138c0ff08000800010040000800;
0x102006180a1a000102030405060708090c0d0e10111213141516171a1b1c1e1f11150f131787020d1905091d040787000b1b314060001f000300be0517060000;
0x1323032115210321152103331321010b210321015d01081f14121a111a04140d0b0c0b020b010b1140303232ec32c43c3cd43c3cfc3c3cd43c2f00313917ccfc;
0xfe9f0161fe8703b2fe8503666901befe546001c5fe68a167dbfe67a0689bfe3e0152a1fe380167a06924016844250154ddfe1704132135211321352113230321;
0x29021b2f292f021c1e011d0a0b0b02282601270a0b0a02225540d5002f002800210014066d04d3feaa000300009f019a4e01999e0162fe9e0162fe99b2fe9a61;
0x3cfc103006050d0826070103091022090003121a29071e0a16082d0289058a2a001089168a1a23110586061686170205212a09061704291b0a22101113422f29;
0x59ed041007391711ed0e1007391711ed0e1007ed04100758534b30391211391712113911391211ee10ee10c432ece4d4c4ece42f0031ece4f43c17fc3c17f4ec;
0x12e03230159383711384000300030000100c0ff3000bd585b540fb04b5b5410b04b540cb04b015938371138c0ff30003000010040003000bd585409b04b0122;
0x5caf5353ae5d64ccdac9dd6fd1666ad2690164b402263435013e1117161415010e110307061415011e1127012e1517011e15333537363435012e1117011e3527;
0x585a6e114ffed56056586a0d9a0100030fc3a99cb42355fe042e2aaf1b1f04e8eb0ebca396ac24c801014140b42d2d022d01d3fe7b817fe1717a7464d6e3d6e3;
0x309251b2127349124288c12268d0c92062492188d2e921e0c9200422724270f262526250f243640950033002700230017000b00f0052907e3ff710005000068;
0x9b04b012259ed051007ed05100758534b30ee10eef6ee10ece43cf432e41000313912113911eef6ee10ecf4ecc4fc10340b310f0d1b0e2b0d210f0d090e150d;
0x230614151632272634353632331614150622015938371138c0ff34003400010040003400bd585b540db04b5b540eb04b5b5414b04b5b540cb04b5b540bb04b54;
0x5afca031036463575762635697fcbbbaa09dbbba9e5563635557636357d105363435262223061415163213230133252634353632331614150622013634352622;
0x900f005fe05e3ff8100020000dcbabcdbdabdbbdb0d06f3f97f96818494948482956102dbbcbbdbdbbbbbdc7f95838295958284949102bab99f9fbbbc9e1fa0;
0x31516170a130a111e21021f201d1e1e000986001d1e1d86010301021516168608060107151615090086091112120b0a860b111211860c0e010d9640cd013000;
0xe8c1891249427952b1895062728060e1528031e0a000603090b12420a131311140a131115180216170a130a1100030201020a13131109060208070a13111418;
0x11c610ee10eee6f6e4c62f003139113911393911393912113911eec610ecd4d4c4ecfc1031101b120321130f110e2127122e031e0e2715122e00090e0b2e0a13;
0xed0e1007391711ed0e1007ed081007391711ed051007391711ed0507391711ed051007391711ed051007391711ed0507ed05100758534b303917113917113912;
0x1a5a12550a5a0159005e0b441234003a1226012a002a0b17021f011c001c290922050b07b2405d0101320fb22259391711ed0e1007ed081007ed081007391711;
0x2a1223092901270027321f1d16151c141c11190c190b19091b0218280c270c11080c090b091f2d992295169515930b9508970299019a009b007b1e6730591f5a;
0x9f089c079c0595029701930093117a0c790175326011690c6a325f1f5c135912550c59095a0156324f1946154b144c094a323f13391234093b322f1528142a13;
0x15062223012e1517163233363435012e37363435002223010e2723010702063337013e010937363233161415010e015d005d3932b032a032900c9a0b9b099a08;
0x8472cb59f8fd8f02403fc29258a15123033b8369449e5755a553b8de32308686cefef183e4688ffc17015d680cba06423bfc017bfe49a65fa0d4555bf2011614;
0x130ecf4100031ecfc10040402050004810084010a4042000300d5056f01aa03c50001006733586f312fb62424c5a23c7d3f63e180d71301575993e3fe7efefe;
0xf2feb0000100002b02d5fdd505aa6f01112311015d0605a0059005700560055005400d405938371138c0ff04000400010040000400bd585b5413b04b5412b04b;
0x15938371138c0ff0e000e00010040000e00bd585413b04b0130ecfc100031393911ec32e4dc100e0a130006120300070d0e970098060f404f000d0012067b02;
0x1dfe0c601ebe53bfee7e73efee6120697949596a0858382867b023712343502262317121415020601593837113840000e000e000100c0ff0e00bd58540fb04b;
0x96a0a4023435123623070214151216331330ecfc100031393911ecf43cdc100e00081304120b0001070e970098070f401f000d0012066f02f2fea4000100ecc4;
0x812910e010a990c110599030804020407090c04000b0d102c404e001100f005c3034a023d000100c201e7e7c501e5eb3afee0df3cfeec1206838385a0969595;
0x25252705112311250705050130391712391732ecc432ec3cd4f410003139171211391732e43cdc32e43cd41012060d14090b040f140002030103110609030a0c;
0x23000b000405db050000d9000100cb87fe7901cb63c2c362cb790187fecb62c3c2df0450017250013a99fe67013ab0fe72b0fe3a670199fec303251133110537;
0xfdaad3fd04052d02d3fda8d3fd2d02ae0311213521112311211521110130c43cfc3cd42f0031ec3cfc3cfcdc100c0815060a17000415020503079c0109001140;
0x1004001c0feacfe5281a4d3f013230315333730ecfc100031ccd4ecfc10061800190104030683009e030c4019000500fe00c30112ff9e0001002d02aa2d02d3;
0x18001901028300b711000300fe00ae010000db00010000a48302e5fd1b02642115211330ecd4100031ccdc1004000104029c00b61100030083027f02df016400;
0x30ecf41000313939c42f030100020481009f02420300031a020102011a0014402d000300d505b20242ff00000100fefed3d3db2315333730ec2f0031ecfc1004;
0x1b151c031e0f1c09188c12910ca00012a0061340230017000b00f0058f04e3ff87000200006df9d505aaf8fdaa0802230133012259ed051007ed05100758534b;
0xcdfe50050901f7fefbfbf7fe0901fb9d9d9d9d9c9d9d9c8b0200101100222300101100322702101112323312101102220130ee10ecf4e4100031ecf4ecfc1018;
0x1c061f0809a000078105a00204a0034215404b000a00d5055a040000e1000100008d017a0179018d0173fe87fe86fe73fea03301340133013301cdfecdfeccfe;
0x332535051121375d02040f030fb4593837113840000b000b000100c0ff0b00bd58540fb04b01225958534b30ecd4ecf432ec2f0031ecfcc4ecd4100b011f0003;
0x14a00d9411a1104204050511000405111c18031b1a192740a5001c00f0054a0400009600010000aad5fa48b8487304aaa4fc4a01ca650199fe4a01fe21152111;
0xb04b5b5416b04b5415b04b012259391711ed0507ed05100758534b30ecf4ecf432ec2f0031391211c0c0ecd4c4fc101d060310171c0a01020a100002a0000491;
0x82198600821c741b731a75067600741c051b041a04190400040719871b76057a047a07560556045532405938371138c0ff1d001d00010040001d00bd585b5414;
0x1e858d47a78d35f86a74d61338d01734cfcc1028901000607061415043233013e3507062223263435013e37003635211521255d005d111ba800a81c821b821a;
0x9309a00d15a01320861f09860a1315002e407b002800f0057304e3ff9c00010000ebfe1d70a55cc2e83231cc4342967749976d3a910177aaaaaaf4fe195b4514;
0x130391211ee10ee10ee10eee610ece4f4e4ec10003139391711ecf4ecd4c4c4fc102906091f14031c1020261c19140300131c1629a3158c0691239320a01c06;
0x3335012b263435363233011e3527262221041415011e015d0004216420611f611e6409405938371138c0ff29002900010040002900bd585b5414b04b5416b04b;
0x3231c32525f2dd90c41f25038e0c01e659c97372be5398a39e95b6aea5b9c7be6dc8546ac75ee8fed0fea3913f03061415043233013e35070622232634353632;
0xc0408061c000a0c010981030105a0070b0300420d0303000d030d011d408c000d000200d505a404000064000200ab7cb2d12020b426247b737077a695848f96;
0x405938371138c0ff0e000e00010040000e00bd585b540db04b540bb04b012259c9051007c904100758534b30391232ec3cd4e42f0031391132ecc43cd4dc100e;
0x2fe060335211123112315331133032101095d005d0d0185037a0175016601560d4f0c4f014e0136032b0126002b011607008a0077006900590048002a000b2a;
0x1ea4078c0d8100a0020d8910a01407a01a1d108611071a04234075001d00d5056404e3ff9e00010000c36001a0fea833fccd03e3fc25055efdc9d5d5fe35fe01;
0x1138c0ff1e001e00010040001e00bd585b5414b04b5416b04b0130391211ee10c4fe10eee610ecf4e4e4100031eec410ecd4c4fc101e06100a001c030a011c17;
0x582ca0fd1903dd07062223263435363233011e3527262221001415003233013e1121152113593837113840001e001e000100c0ff1e00bd58540fb04b01593837;
0x2440580024000b00f0059604e3ff8f000200002624b69c9cb63031cb2020f5fef1eaeefe0f0f92feaad50554a151adcacaad6bc05a68c35eeffed4fe2401fa2c;
0xcb144030391211ee10ee10ee10e4fce4f4e4100031e4ecf4ececfc10251b1f21031c131e191c09220c258c1c9122890ca010a5161ca00616a0000c860d000613;
0x9f9f88a402163221001011002023001415003233013e03022223012e15012634353632331614150622015d015d021eb21ea40706cb05cb04cd03cd02cd01cb00;
0x620179018d01eafee6ebeffe5d57effef2fe2624b87902baa2a1bbbba1a2ba3b039b4c1b015001eefefdfee2f0fe0501e16bb23b0fd3c84c9b4c09019f9f8888;
0xed05100758534b30ecf42f0031393911c4ccfc100706000104010305038100a0054204050411030203021105184063000600d50568040000a8000100001ea501;
0xfdc003a8210123011521135d005d0706b000b0036705480539051a030601025812405938371138c0ff07000700010040000700bd585416b04b012259ed051007;
0x1b151c090f1c24151c2a240c1830a3278c1e9112a02d1ea00627a0000c18254043002f0023000b00f0058b04e3ff8b000300002b0581fa56d50533fdfe01d3e2;
0x1415161607061415163233363435262625263435363233161415062201303939ee10ee10ecf4e4ec100031393911ee10ee10ecc4f4ecc4fc10301b210f1c031e;
0x869b9a87879ac502918382939382839148a4f7fef7f7f7fea3928191fedfdeff9182a5fea5a69090a5a5908b0206222326343536323316141336343524222304;
0x8900a004a50aa019008601191f072340580024001800f0058704e3ff8100020000828274748282746101c68fd9e8e8d98fc62220b280b3d0d0b380b220569a87;
0x12aa071fc41ec21dc01cc01bc01ac219c4164030391211ee10eef5fee610ecf4e4100031ececf4e4ecfc10251b0d1c2222001e13211c1c07258c169110a01f16;
0x10301e21001fbfee06cb23a0fd3c84b9c4ce1161415062223263435363201262221001011002033003435002223010e13123233011e35375d015d0312e912bc;
0x3002304c3010000f000020000baa2a1bbbba1a2ba97021e5bfe9ffe86fe73fe1601e6eb0f015c5612010d012624b81f9f9f88889f9f883e019c4ce5feb1fe11;
0x90003002304c30112ff9e000200fe2304fefed3d3d3d3f0231533112315333730ecf4ec2f003132ec3cfc1008180004030105028300a60483060e401c000700;
0xc0feacd9fdfe23045281a4d3d3d3f01323031533112315331330ee10ecfce4100031ccd432ec3cfc100a18000419010508070aa60083049e0700830213402500;
0x32ecfc100723042400020107a706a8030500010204054205069c0005060501029c0103040401009c010304039c022a404d000600a604db055e00d90001004001;
0x6001d900020000d101a6d101b693fe91fef0030205fefa0804f8fbdb050135011502092259ed041007ed081007ed081007ed040758534b303917ecf410003139;
0xd9000100aaf0a8a203fefa0205fefa0205d9211521152115211330ecd4ecd410003132c43cfc1008230004010508049c06029c000d401c0007000300a203db05;
0xf410003139ec3cfc100723000424020607a701a8040500020305064201020206059c060102019c000304049c0503040306009c062b404f000600a604db055e00;
0x24000300f005b0030000930002006d01b62ffea62ffeb6f0030604fefa0205d9013501150135132259ed081007ed041007ed041007ed08100758534b303917ec;
0x1211391211393911ee10ecd4ecfcc4dc1025131a26000301051c041a1c0d011e0a0405090d1a1d02830091179510881386140004131d0a0406091e242b407000;
0x35013e013f3634352313231533255d03207a0a7a0979b65938371138c0ff25002500010040002500bd58540cb04b01303917393911cd10eef4fef6ee2f003139;
0x315e35595682659a9101fefe060608272f585a48dfb867c15e61b34f6c8333395a5a38bfc5cbcb870115010e07010e010f061415163233013e35070622232634;
0x4d4337a924ac1537a930ac0f33340f4ca9031b1519a909030c18324095004c000b00a20571079cfe8700020000343c1519352f5656894c9fc23839bc43466e59;
0x30393911eec41032eec510c6d4edfe10ecfcc4d410003139391211ee10c63cfefdfe10ecfcecdc104d3d2c49282a2b1249281e2b1a280c18061228001a1e3433;
0x353632331614015d01044e3f4e2f4e1f4e0f0940593837113840004d004d000100c0ff4d00bd585b5414b04b5b5413b04b5b5410b04b5b540cb04b5409b04b00;
0x1704323324363712343502262724222304061737363233041617121415020607062223242627263435013e11333517163233363435262223010e010622232634;
0x7e88868080b8feb998d9fe7d5a68f9819d1401696d73b19d60e27bb0d5fe68403fa5928f3b9c67abd8d7ac679b3c21028f797a908d7b7c8efa0205001015011e;
0x7d7d8367616f51576d686aeafe9fc1b5fe6640418b8350bc6bb1df1620fd834c4bfac8c8f9494d48fea4a58c8ea4a38f1902e8fec2fe4f4b7b6b01d4bd520181;
0x11070a0303000211000a030a11010405051102040504000111004140ba000a000200d50568050000100002000006d0fef9fe7be662a0ae877f7d4a01b6bd4901;
0xed0507ed05100758534b303912ecd4e43c2f00313917c4d4100b0a0509000102030406070809050981030195070300420a030a11080a03110904050511060405;
0x1670c500258015602190116040903060208010705008c007000760058000f3a405d01010c20b22259ed081007ed051007ed051007ed081007ed0507ed051007;
0xae0319fd0e05d5885ffd88d23902e57bfe2502eefebc0223032103230133012101095d005d170496039902980c8002880187087807770472037c027601780268;
0xecfc102104121c00092e1c1905161c0e00051f191302080b111fad0a9501811295090a95001923404300200011000800d505ec040000c900030081fe7f012bfa;
0x440193012123041415011e07061415163221252326343536322111012326343536322111015d0101220fb23039ee10ecf4ecec2f00313939391711ecd4ecfc32;
0xf0052705e3ff73000100dac898cb2014a289b1c0a67071726f3efe6602858c8b87ddfdc902e8fdfbf0fea5957c80fae704020bfe949191942b01bcfea39d9da3;
0x2023012e15015d01021b1f1b0fb430eef6ee10ecf4ecf4e4100031ec32ecfc101a101430000d19071a8c1191179504ae00a10111950aae0ea10d1a4036001900;
0x5f5ec7fed9fed8fec7fe5e5fd56205ed86530186017afeadfe84ed6a66e78200011001f0fe00ff82e7662705163221001011002023010e153736322100101100;
0x2f00313939393911ecf4ecfc101204091c00320d1905000a1002081095018109950015402e0011000800d505b0050000c9000200479f01680167019f014848d3;
0x12c012e01180177fb2f0561fe50fe68fe9601b2019f0142fecbfee1fe1f013501f493010129001011002021252100101100203311015d01011360b230ecf4ec;
0x30ee10ecf4ecec2f0031c4c4d432ecfc100c04001c03070901050aad0495088100950204950615402e000b00d5058b040000c900010096fe7efe80fe97fea617;
0x481009502049506124029000900d50523040000c9000100aae3fdaa46feaad5053efcf80239fdc7021afdb003c92115211121152111211521135d01010d1fb2;
0x730001000037fdaa48feaad505cab0fd500270fd5a03c9231121152111211521135d01010b0fb230ee10ecf4ec2f0031c4d432ecfc100a04001c0307010508ad;
0x11eed4fe10ecf4ecf4e4100031c4fce4fcecfc101e100b1918330434111c00021e8c08910e9515ae11a11208951b0395011b0500204039001d00f0058b05e3ff;
0x1301edfeeefe8bfc706f0701925e018b0175fea2fea0e6fe751202b6fec304363221001011002023262615170432210010110020230406112135211125303939;
0x38051c0307060a810004ad02950814402c000b00d5053b050000c900010025cefed2fed1fecefe605fd7464899016e016d01990155537ffda69101d5a86b1201;
0x1000039fdc7022bfa64029cfdd505ca22fdcacade02cac92311211123113311211133135d01010d50b230ecfc32e43c2f003132ecfc32ecfc100c04001c0109;
0x8f05600550054005300d4059383711384000040004000100c0ff0400bd585410b04b0130ec2f0031ecfc100404001c0102af00b739000300d50593010000c900;
0x11ecfce41000313939e4ecfc100c04001c01390608050c8100b005950700020b13404d000b00d505930166fe96ff01002bfad505cacac9231133135d06059f05;
0x56e863f4de3cdcac93536323335012b06101133135d060d9f0d8f0d600d500d400d300d40593837113840000c000c000100c0ff0c00bd585410b04b01303939;
0x1c0108060401050609af0003030205084204050511020405041103050606110705060511082840ef000a00d5056a050000c900010000c296aaf4f2fe93fad5;
0x3602370828052802160809020401021492405d01010308b22259ed041007ed051007ed051007ed04100758534b30391732ec3c2f00313911c4d432ecfc100b04;
0x410c300735063605360436072a062b05280318070a030a050719031b0609050903061502e7089b0294088f058802830577027602670255084305460247083405;
0xf905f803f706ea05e804e903e807d603d707c503c507b503b6079d069d039a0c8f078f068e058b038b0c70057707670568046003620c40074006400545044003;
0xc4025000500d5056a040000c90001000031fdcf02e3fc48fd770289fdd505ca33fdf6fe1a031bfd04019e02cac92311012101092101113313715d00715d2c06;
0xc00d5051f060000c9000100aad5fad5055ffcd702cac92115211133135d01040480038007500730094030ece42f0031ececfc100604003a031c010481009502;
0x391711ecfcecfc100d04001c0a3e041c060a050102030809050b08af0003080302070a42090a0a1101090a09020311020708080201110207080711033440bf00;
0xa200a260720072602260a13071402150a02090f080f070356405d01010e70b22259ed051007ed081007ed081007ed05100758534b3039171132ecc43c2f0031;
0x5d14039b0195038d018109790876096a086509590856033c013409280827032c0123031b0113030b01041602900a82078202800a79077b027c02690a350734;
0x11071e4079000900d50533050000c9000100e1fa000400fc1f052bfaf80308fcd505c47ffecb7ffec52d017f017d012d01c9231101230111231121010921135d;
0x5d01010b1fb22259ed041007ed04100758534b30393932ec3c2f0031393911ecfcecfc100a04001c0736041c020701060508af00030207420607061102010201;
0xc9231101211133110121135d005d100b9f069a0195068a01850679066901650658015706490146061a0115060901060702800766026907470248073802363040;
0xecfcecfc101810151903330f1909188c12910c95001295061340230017000b00f005d905e3ff730002001ffbe1042bfae1041ffbd505c46afdf0fec496021001;
0xfe4c05790187fec5fec6fe88fe78013a01dcfffe0101dcdc0301fdfedc270300101100202100101100202700101100323300101100220130ee10ecf4e4100031;
0x402080a10128109950010950118403a0013000800d5058d040000c9000200a50162016201a4015bfe9ffe9efe5bfea448011b011a014801b8fee6fee5feb8;
0x93012311012b041415043221252326343536323311015d010515af155f153f151f150f0b4030ecd4ecf42f0031391711ecfc32ecfc101404091c00113f0d1905;
0x420c0d0d010e0c0d0c010f0210112a4052001d000b00f005d905f8fe73000200a8fde2dddbe3a692868792cffd2f05cafefbfffe0101fbc80138fe8d9a9a8dfe;
0x3917ed051007ed05100758534b30391239ee10ecf4e4c41000313911393911ecfcecfc101e10151903331b1909030c0f1b0d1e0d8c12911895001295060c1e0f;
0x13a013b01790187fec5fe102321ddf40a013ffffe0101dcdc0301fdfedc27030210110020210010110020230606272301130010110032330010110022012259;
0x8093540b1001c001300d50554050000c9000200008efefcfe9efe5bfea50162016101a5010202efddfecffa48011b011a014801b8fee6fee5feb8fe4c05d178;
0x393911391711ecc4fc32ecfc101d040c1c0a143f110419190a050e161c000911030605040b810d951409951504031500040642030404110503040311060a0307;
0x25041703160214011500150407030602050105000501137a42405d01011e40b22259391711ed051007ed05100758534b30391239123912ecd4ecf43c2f003139;
0x1415162021112311012b012e03231317011e015d005d1f0798069807880688137705750475056802460146023601361e20092608260726062703260225012500;
0x85838387eefd4f02ba8dd8d6d50589fd62967f0168fe7e9016bc0292959592fe89fd83fc0001c801cadc788b4abfd9cd3e7b418d0323263435363233110106;
0x1b1f0b0a1e288c119125940095041195189414a115000115041f1e0b0a421e1f1f020a070209081e1f1e020b0e020c0d3c407e002700f005a204e3ff87000100;
0x290fb22259391711ed0e1007391711ed0e100758534b30391711c610eef6ee10ece4f4e4100031393939391211e4ecfcecc4dc1028221419072d0e191b220007;
0xd7e27aa677b3a55fcc734804163233243435012e012f263435363233011e3527262221041415011e011f161415062223012e15015d03294f292f291fb65d0101;
0xe9040000faff01000026e4c6abc02d181f7c6e7e884645d02f30e0d9b6d92b191f656376803637c5a405da69f51701cae27b9a87bcad72ec7b80ef6ae7feddfe;
0x1f090013405938371138c0ff08000800010040000800bd58540ab04b013032ecf42f0031e4fce4d410080540001c0340010481009502060e404a000700d505;
0xe9505000b11020816404b001100d5052905e3ffb2000100002b05d5faaad505eefdcbeefdef040621112311211521035d09099f097009400910071f02100110;
0x3139f138f131fb65938371138c0ff12001200010040001200bd585410b04b01303939393911ecf432e4100031ecfcecfc101241001c01380a1c08128100098c;
0xd505680500001000010024012a01d6fedcfe5cfc8b03f0d3d3f075fcd505dffee5fee6fedffecbaec2c3aecbb21100202100101133113536323316141133135d;
0xed05100758534b303932ec2f00313917c4d41007010505000203040600af010403420001011102000100030411030506060302110305060511042740b7000600;
0x250529042902260126002a051a041a021401150609040802070006070383037d035a05470447032a030062405d01010850b22259ed051007ed081007ed081007;
0x1093301215d005d2906970098088006750579047902760176007a056904690266065600590647054904490245014500480637053c043c023301330038082006;
0x711060a0b0b02011a020a0b0a1a03090a1a04090a0905061a0549407b010c00d505a6070000440001002bfae90417fbd505c7fdd2da01d901d3c6fd4a020133;
0x534b3039173232ec3c2f00313917ccd4100d00070b01020304050608090a0b0c080baf0003060302050a420c000011010c000c02031102070808050411050708;
0x53e023e0a200a2405280a120a000a000a0205060206f2405d01010e00b22259ed081007ed0507ed051007ed081007ed051007ed081007ed081007ed05100758;
0xa0a040900090708000804070106000500050604000308020900071d059502960a80057f057c027f027b0a600a67056b026a02590a400a42054d024c0a300a34;
0x42054005450440024a014600460e300c3f0b390936083005330435033a023c0e200e200b250a240923082007200620052104200e100c1908150415031a0e000c;
0x70087707790679057404770378027b017600770b640a64096408600760066005620461036702660e500c59085602580e400e400c4d0a44094008400842074206;
0xfec2fec5fefe89fecd39013a01e339013a01cc44230109230133010933010933135d005d5b0eaf0e9f04970e8f0b8a098505890488038702860e7f0c7f0c7808;
0x1110204050411030506061107050605080911080a0b0b080711080a0b0a110946405d010b00d5053b0500003d000100f0fa10052bfaee0412fbee0412fbd505;
0x1007ed05100758534b30391732ec3c2f0031391711c4dcc4d4100c0a00060400040205080b0609af0003040205080b420b000011010b000b0203110204050502;
0xb840593837113840000c000c000100c0ff0c00bd585b540eb04b5b540db04b540cb04b012259ed051007ed081007ed081007ed051007ed051007ed081007ed08;
0x1609070708030901061b0b96089d0597029002940b85088b0587028002860b770277086b0266085b0558084b0b36083802340b2708270b170819021608080207;
0x690568046a036a016500650d5f0b580d4f09480d3f0b380a340934073b063a043b033c013400350d200b290927072805260329022801260d1009170719031901;
0x33010933135d005d400daf0d9f0b930895069705970294019000900d8f0b830884058503880283018000800b780a7f097d08780779067903780a6c096c076906;
0x20405041103284094000800d505e7040000fcff01001d0385fd7b02f8fc33fd2b02d5fdd5051502da59fe5cfed9000220fed975017301d98101230109230109;
0x7ed081007ed081007ed05100758534b303932ec2f00313912e4fce4d410090740001c054004070206af00030242080000110108000802031102040505020111;
0x1670a4003380137032901260a1f031a01161002930284026508510551025108400540024002460830053002300235021402053c405d01010a00b22259ed0510;
0x80711031b409b000900d5051f0500005c00010000c70239fdf2fc66029afdd505cbf0fdd99b019e01d9041123110133010933035d005d0d0a9f0a7003780368;
0xbd585b540ab04b5409b04b012259ed051007ed05100758534b30ecf4ec2f0031393911e4d4c4dc100a06000442010003080595038100950842020302110807;
0x550b4f084a03470b3f083903350b2f0b10081a03160b00080b0305090848074702480738072602290718070a020540405938371138c0ff0a000a00010040000a;
0x14065802f2feb00001000091049aaa6ffb9ad50567fcb0033dfbc70350fc950473210135211521011521135d005d160b9f0b7f087803770b6f08690366085903;
0x4b5412b04b0159383711384000080008000100c0ff0800bd58540cb04b0130ecf4ecfc10003132ccfcdc1008004303010508b100a902b206a9040f4053000700;
0x1011a0214402d000300d505b20242ff000001008ffcf98f140658fef0f0a801b021153311231521135938371138c0ff08000800010040000800bd585b5413b0;
0x6f02f2fec70001000093066df9d505f8fdaa0802aa012301132259ed051007ed05100758534b30ecf41000313939c42f030100020481009f01420203031a0000;
0x3711384000080008000100c0ff0800bd585b5410b04b540fb04b0130ecf4ecfc100031ecdc3cfc100804020604430008b100a905b201a90310403c0007001406;
0x101303932ccf410003139ccdc10070501030781000104030a4018000600d505db05a803d90001008f04068fdef81406efef58fe6f0235231133352111015938;
0xfb14043521150130ecd40031c4c41004020001a900b50f000300acfe14041dfeecff0100002d0275fe8b01d3fdd5051f02c948fe48fec91f02bc030123010123;
0x4000040004000100c0ff0400bd585b540eb04b5409b04b0030ecf4100031ecdc100401440304b300b40109403100030066068902f004aa000100008f8facfed8;
0x178c11b823b91cba1f8620110eb90617a9000e09170b1f192740bc0025000a007b042d04e3ff7b00020076018afe6606bafe991a016f01012301095938371138;
0x40273f2230213020301f301e301d306e4030391239113911ee10eec610ecf4fcf4e4c42f00313939113232ecd4ccecfc1026451408031f0b08090d180317000c;
0x1e50214020401f401e40213020301f301e301e27f027a027902285218720871f871e871d85277027502250215020501f501e501d502240214020401f401e401d;
0x22232634352133363435262223010e35231137013d3632331614150622015d015d18218020801f801e80217020701f701e70216020601f601e60215020501f50;
0x2727aa2e2e8b7f12c0bda2c16166aa81fd4c29b4d973627b663302f0f35abe6554b66097a70201fbfdcbac88bc3fb8b8b9996f81acdfbe02163233013e350706;
0x30eec610ecc4f4e4ec2f0031ecf43232ecfc101d461a08060c184712120019971bb80f8c1518b9090f0cb903194038001c000b001406a404e3ffba00020000fc;
0x2b9b93ab17bccffffcc7bb13a8efda79292a7a79292a7e5033311231527262223021011123233013e013632331614150622232634015d01031ea01e801e60b6;
0xd12071a8c11b817b90411b90a880d860e04880186001b403f0019007b04e703e3ff71000100001406a86461bcfef8fef8febcfe61645202e7e7cbcbe7e7cb2f;
0x3221001011002223010e1537363233161415062223012e15015d01051ba01b901b801b101b0f0b4030eef510eef4fe10ecf4e4100031ec32e4fc101a45144800;
0x38001c00100014065a04e3ff71000200233a0112010e013e012424aa2b2be3cdcde32b2bac3504a25506012d01d6fefd5da54d4e9d50b3c6c6b3509d4ee70316;
0x10e3523113311015d01031ea01e801e60b630eec410ecc4f4e4ec2f00313232ecf4ecfc101d450b1211470208000417039701b80e8c0805b9140e00b91a1940;
0x15fe6144010801080144016164a8ecf95e02b603a79292a8a89292a7c7fdb17ccbffffcb7cb13ab8b8a203062223263435363233161401163233121011022223;
0xfc101c450f12024b0008150802151b1c8c0cb812b918bb010cb90501a9150588088609011500244070001b0014007b047f04e3ff7100020000e7e7cbcbe7e7cb;
0x6f026f016f006f0a2c092f082f072c051b3f153f023f013f003f051df01dd01da01d701d3f294030391211eef410ee10ee10e4ecf4e4100031391211c4ecf4ec;
0x9a88a502b80701e2fc2901c7fef4fe6bd06362c76ab7cd0cb2fc7f0407062223012e07003233001011002023010e1537363233011e2115015d01715d091b6f15;
0x7000713020abc060e9700870106a9080c0110051c40700013001406f80200002f000100009eaeb497c4ddfe430113010a0138012c2aae3434c7be5a5e020eb9;
0xbd58540eb04b0159383711384000140014000100c0ff1400bd58540ab04b013039391232ee10ecfc32e42f0031393912c4c43cfcc43cfc10144c0b0f0d080509;
0x50991406bdaeb0b0b9d1fe2f014d63b0f80233363435333523112311211521011d06222315015d0315a015501540b65938371138c0ff14001400010040001400;
0x4520121206470c080019261d1abd0fb909bc27b82326b9030fb916138612091d0c1923404a0028000b007b045a0456fe7100020000abbb4e8fd1032ffc8f6368;
0x3d363233011e35272622210210173632331614150622232634015d01032aa02a802a60b63039391211eed5fe10ecc4f4e4ece4c42f00313232ecf4ecc4fc1029;
0x1e1de9fee2feebdcdcc7c8dcdcc83d02b839b27ccefcfcce7cb239b4b5529e5151ac61fafefeb8a59594a5a59495a5a203333517163233121011022223010e01;
0xecfc1014460b08090d4e000802010a970cb8110e8706010e03000903194034001300140664040000ba00010000aa63623a01040103013a0162635bbfbd2a2cb3;
0x9e9f9e025cfda402c6c175b342b9b9ac957c7cb86404163233013e1133112311150622232634112311015d01011560b23039171211ecc4f4ec3c2f0031ecf432;
0x950094009100b4030ecfce42f003132ec3cfc100846000408010502bc00b104be060e402b0007000300140679010000c100020000ef64659efd140687fda4be;
0x100810b10cbc00bd0587070cbe0e0007020b1c4044000f000b001406790156fedbff020000e91406a0fb6004b8b8b8b8c123153311231133135d010509700960;
0x231533113536323335012b06141133135d0105117011601150114011100b403039391211ee10ecf4e4ec100031391239e432ec3cfc101046000c08010d4f0605;
0x3030205084204050511020405041103050606110705060511082940bc000a0014069c040000ba000100e9280699619cc0d68cfb6004b8b84c693146b5a3b8c1;
0xa02045f405d01010c10b22259ed041007ed051007ed051007ed04100758534b303917e4ec3c2f00313911c4d432ecfc100b46000801080604010506099700bc;
0x89048503890c6003680c40072b062b052804270328070a030b02060905091202a3089705960293088e0589028205770273086702660256082b05290227021608;
0xf4fde30169fc1406b9c7fdf06b02aefdeb2502b9ba23110123010933011133135d00715d1a04f004f703f003f707d607c507b605a703aa0797039a078f068d05;
0xf91406b8b8c1231133135d010605f0057005600550054005100d4030ec2f0031ecfc100446000801029700b722000300140679010000c1000100ddfd2302acfd;
0xecfcfcfc32ecfc1023461a08181c500f0811500608080f1100071019bc1bb803201d870c15071d06000f1809120626405a0022007b041d070000ba00010000ec;
0x23263411231115062223263411231115163233013e015d010924ff24df24bf24a024a024902470245024301340303917121132ecc43cf4e43c3c2f0031391211;
0xae600487fda3bf9ba29e0287fda4be9ca19e025cfde2f5767c8903ab7a79b03fb9b9a68d7772b9a68f7572b9beaf82c0452904163233013e1533112311150622;
0x3039171211ecc4f4e43c2f0031ecf432ecfc1014460b08090d4e000802010abc0cb8110e8706010e030009031940360013007b0464040000ba000100007c6267;
0x71000200ef6465ae600487fda4be9e9f9e025cfda402c6c175b342b9b9ac957c7cb86404163233013e1533112311150622232634112311015d010215cf1560b4;
0x7f0a7f097f087f077f067b007b193f234030ee10ecf4e4100031ecf4ecfc101845151203510f1209188c12b80cb90012b90613404a0017000b007b047504e3ff;
0xfef1f0eefe1201f093acac9395abac9473020010110022230010110032272634353632331614150622015d011119f019a0127b117f107f0f7f0e7f0d7f0c7b0b;
0x1dbc03bd018c0eb80805b9140e00b91a1b403e001c0010007b04a40456feba0002003801140113013901c7feedfeecfec8fe9ce9c7c8e8e7c9c9e7df031101ef;
0x263401262223021011123233013e1533112311255d01041ee01ea01e801e60094030eec410ecc4f4e4e4e4100031ecf43232ecfc101d460208000417470b1211;
0x56fe71000200e7e7cbcbe7e7cbeb0161bcfef8fef8febcfe6164aa0a06aefda8a79292a7a79292a73802b17bccffffcc7bb13ab9b97301363233161415062223;
0x801e60094030eec610ecc4f4e4e4e41000313232ecf4ecfc101d45121200471a08060c181dbc19bd1b8c0fb81518b9090f0cb9031b403e001c000b007b045a04;
0xcb2f02b8b83ab17ccbffffcb7cb13a7302a79292a8a89292a72f012311333517163233121011022223010e010622232634353632331614015d01041ee01ea01e;
0xecc4fc101246080008060a07bc09b80e87030b1100070b061440300011007b044a030000ba00010000f6f9aa646144010801080144016164aefde7e7cbcbe7e7;
0x4b2fdbecb1112b4031c2e1385ba3ab9b9a79c2c491f4a0317163233013e153311231115062223012e015d0102139f1350b430391211ccd4c4ecf4e42f003132;
0x8c11b825b90411b91889158614048901860015041f1e0b0a421e1f1e530a070209081e1f530b0e020c0d3c40e70027007b04c703e3ff6f00010005056366ae60;
0x391711ed0e07391711ed0e100758534b30391712eef510eef5fe10ecf4e4100031393939391211e4ecd4ecc4fc102845221408070e081b5200071b1f0b0a1e28;
0x860a862724212920291f281e28162a152f142f132a0b280a280224012000200b0c3b0b3b0a3b093b0c2c0b2c0a2c092e0c1c0b1c0a1c6d405d01012700b22259;
0x23012e1501715d005d1829f029a029902980297f295f293f292f27091d041c031b031a03190310030f030e030d030c030b060a06020201000000120d860c860b;
0xcee098ab40ab658c8261c6666cc35ad8f7a5c43f946289895aa84e8b03163233363435012e012f263435363233011e3527262223061415011e011f1614150622;
0x8708bc011100a9030f08050e1940380013009e05f202000037000100001eac9e8295240f25504b51593535be2323b69c89992a0e21494054542828ae3f04b466;
0x770111333523113526222315013b16141121152111015d010115afb23039391132ecc43cf4ec2f0031393932c43cfcc43cfc1014460e12100800040209080b0a;
0x8090d0cbc010a8c110e8706010e0300090319403600130060045804e3ffae000100003e018f6002d29f9a4e89a0fd8fc2fe9e058787a2d5bdbd734b85fe7b01;
0xb143b8b8ad957c7cb8ae262223010e3523113311353632331614113311135d010215cf1560b43039171211ecc4f432e42f003132ecf4ecfc1014460008024e0b;
0x24206000011010600060203110204050502011102040504110327401201060060047f0400003d00010000f06366aca0fb7b02a4be9f9f61fda602ba01c8c175;
0x70007000100c0ff0700bd58540ab04b012259ed051007ed081007ed081007ed05100758534b303932ec2f00313917c4d41007000405010203050605bf0003;
0x1504090309010600060802a4029102800286027f027b026a02488e405938371138c0ff07000700010040000700bd585b5415b04b5414b04b01593837113840;
0x8600668056704690369016600660850045903590156005608400648054604490349014600460830043a033a0135003508200429032901260026041a031a0115;
0x1c33d230133010933135d005d3e08ff08df08c008b006a705a8069705980498039a029701960096068605890489038901850085067a0575047b037b01740075;
0x504110507080711060a0b0b020155020a0b0a5503090a5504090a0905065505494001020c006004350600005600010000a0fbac0354fc6004fa5cfec35e015e;
0x7ed05100758534b3039173232ec3c2f00313917ccd4100d00070b01020304050608090a0b0c080bbf0003060302050a420c000011010c000c02031102070808;
0xd000100c0ff0d00bd585b540bb04b5b5413b04b5b5412b04b5b5411b04b540ab04b012259ed081007ed0507ed051007ed081007ed051007ed081007ed0810;
0x25b0a400a46054902490a350a22051602160205ff405938371138c0ff0d000d00010040000d00bd585b5410b04b5b540db04b540cb04b01593837113840000d;
0x1b051a0416031902150c050b04090b080a050b0406030902051d05cf03c702ce05bc02bc0a94059802990287057f0579027f02790a66056e026e0a500a55055b;
0x440a440944084007400640054204400446034802460e300c390836043603390c230b210a2409270825072206220525042103270223012500250c150b14091b08;
0x7a057d0478037d0279017500750e6f0c670b61096e076a066a056a0465036a0265016400630b550a540953085007520652055104500256015600560e400e400b;
0xa906a905ab04ab03a402a401a600a60e9f0c962f40089907980698059b049c03930294019700970e8f058802870c7d0b760a7b097f09790878077f077a067f06;
0x6a0396fc6004d9f2f1d9dbfeb8e5e6d9e5e6b85623010b230133011b33011b33135d005d7905ca04cc03c302c40ebf09b805bb04bd03b102b50eaf0ca408ab07;
0x110a0001010a09110a000100110b01020211030102010405110406070704031104060706110546405a010b006004790400003b0001006afc9603a0fb6a0396fc;
0xed081007ed081007ed05100758534b30391732ec3c2f0031391711c4d4c4d4100c0608020008040104070a0205bf0008040104070a4207080811090708070a0b;
0xb04b01593837113840000c000c000100c0ff0c00bd585b5411b04b5b5410b04b5b540fb04b540ab04b012259ed051007ed081007ed081007ed051007ed051007;
0x920797049f04990a82048d0a740776047a01760a660a58075704550a31043d0a260a15041a0a04040a98405938371138c0ff0c000c00010040000c00bd585414;
0xb4a0945054603490d300b390936073405370339013a0d200b2a0925052603290b1a09150515031a0b0a09050504030a1c0aa00aa307a504af04a901a60a900a;
0xfe640401093301092301092302095d005d2f0dff0ddf0dcf0db007a401ab0794019b0d7f01780d6f0d500b590956085607590656055703590259015600590d40;
0xa0b110a0f0011090208074340a2010f0060047f0456fe3d0001008f0171fe16024a0248feb801c1fddffd600429012901d972feb301d9bafebafed9aa016b;
0x31391711c4c4d410100b0f040f08000306090a0c0d0e10bc0b0ebd0387050b0010090b0d420a0b0b110c0a0b0a0d0e110d0f00000d0c110d0f000f110e0f00;
0x100010000100c0ff1000bd585b5408b04b540ab04b0122593217ed0507ed081007ed051007ed081007ed081007ed05100758534b30391239113911ecf432e410;
0x870a6a0a5a095a0d4e0a4f0a490d350d230d100d170a160d03090608050006f0405938371138c0ff10001000010040001000bd585414b04b0159383711384000;
0x11200f2a0e2a0d270c240b240a2509280829052004200224012400270f1a0e1a0c140b140a1705100410021501170f0b0e0b0c050b06090a000a120d930d800d;
0x450035502510151005411400f490e490d470a45094208400740064005400440034002400140004111300f390e390d380c360b360a3805300430023501350037;
0xf9a0e9a0c950b9509990f890e890d890c850b85098a00890f780e78087b11600f690e690a680266016611500f590e590c550b550a5709570856075506560550;
0x4e045486489a7ac868c35e015e01c33bfe2133544c6c937c944e93023301093301013f36323335012b010e055d005d6511ff11df11cf11b00fab0eab0ca40ba4;
0x58534b30ecf4ec2f0031393911c432c4dc100a0601040001030805a903bc00a90842070807110302030211081a40b40009006004db030000580001006c0394fc;
0x40593837113840000a000a000100c0ff0a00bd585413b04b015938371138c0ff0a000a00010040000a00bd585b540cb04b540bb04b012259ed051007ed051007;
0xb800b7f0862056004600366026001600b5f085903570843054004400345024001400b30083903360b20082b081b03180b0f080b050749024702260216020542;
0x15101a0925060b150f1934408200240014061704b2fe000101002503a893dbfca8600465fdb4027dfcb4024cfd6a0371210135211521011521135d005d1b0baf;
0x313939121139391211391211393932c43cfcc43cd41025050f0a43192000140213050a1d00191624050a090c25b113a91509c001a90009a90b00032120050b1d;
0x2b2634013d26222315055d012600b259383711384000250025000100c0ff2500bd58540cb04b0130393912113912113939113912391712ee10ecf4c4ecfc1000;
0x8f93ddf095738f7497efdd9490be8d565a6f6e5b568d443ef9a96b8f3d3d8e6ca9f93e1704331614011d011e070614011d06222315013b3634013d3632333501;
0xb2fe0001010000000800f81d06aaae011123110130ccfc100031ecd4100402050004b10001b7120003001d06ae011dfe04010100588df89c8e1b198e9df88d58;
0x25040b001043151f1a00041223151a080004010f151a191c25b111a90f1bc023a9001ba91900032005040f19150b1b080f0c161b251f36409e00240014061704;
0x2500010040002500bd58540ab04b0130391211393911391139391211391712ee10ecf4c4ecfc100031393912113939121139121139391211c43cfc32c43cd410;
0x3b1614011d16323335012b2634013d012e373634013d363233055d012600b259383711384000250025000100c0ff2500bd58540eb04b015938371138c0ff2500;
0xd900010094ddef97748f7395f0dd938f578ef89d8e191b8e9cf88f56be3ff9a76c8e3e3e8e6ca7f93f468c555a6f6f5a558c460001012b0614011d0622231501;
0x363635070622232627262726272223060615013039391211c010ecd4fcd4100031c4d4101e0f001e0c9c131b9c0413000c1b1001104023001d003103db05d301;
0x4c3e050302043c454fb2534d3e050302043b444fb23103a9565e9b0e08050a936e61b36962ac585e9b0f07050b926e61b369db053632331617161716173233;
0x1c111d1b1c111e1b1c110e1b1c1b0c0d110c5440cb0021000e000b006d0768050000100003007501bc000301070000000000240027024e07680500001000ffff;
0x1c1256060f1c1856001b060c180e06120d211f20181c1d1e1c208e090d951e0915c103090d0f1b0c42210f21111f210f1120210f0f0c0e110c210f21110d1b1c;
0xed051007ed051007ed081007ed0507ed05100758534b303939391211eed410eed6e63c2f0031393912113939113912113911391132eed41032ecd4c4d4102221;
0x1614150622232634015d005d0c2380217620761d791c790e7b0d750e690d6623501b080f07030c9b0c730c1a20405d01012320b22259ed081007ed0507ed0507;
0x4157593f5a06d5885ffd88d214023c3fa172739f3e3d58fe2102f0fe98593f3f5857403f59540323032103230107061415163233363435012e01210103363233;
0x27026b078b040000c900ffff00002d01dd0007000000000026002702f005270575fe7300ffff0081fe7f018bfa29764672a1a0734973294e0319fdf3fe58583f;
0x27010301070000000000320027024e07d905e3ff7300ffff7501fe000501070000000000310027025e0733050000c900ffff75019e0004010700000000002800;
0x66062d04e3ff7b00ffff000052008d000700000000004400270266062d04e3ff7b00ffff7501ee000301070000000000380027024e072905e3ffb200ffff7501;
0x8e000700000000004400270210062d04e3ff7b00ffff00005200d7000700000000004400270266062d04e3ff7b00ffff00005200430007000000000044002702;
0xe70375fe7100ffff00005200dc000700000000004400270206072d04e3ff7b00ffff00005200d8000700000000004400270237062d04e3ff7b00ffff00005200;
0x700000000004800270266067f04e3ff7100ffff00008b008d000700000000004800270266067f04e3ff7100ffff00008f00dd00070000000000460027027b04;
0x9000ffff00008b008e000700000000004800270210067f04e3ff7100ffff00008b00d7000700000000004800270266067f04e3ff7100ffff00008b004300;
0xd600270266065c020000deffffff00001dff4300070000000000d60027026606a6010000c7ffffff00001dff8d00070000000000d600270266066f02;
0x7100ffff00009800d80007000000000051002702370664040000ba00ffff00001dff8e00070000000000d6002702100646020000f4ffffff00001dffd7000700;
0x5200270266067504e3ff7100ffff0000730043000700000000005200270266067504e3ff7100ffff000073008d000700000000005200270266067504e3ff;
0xffff00007300d8000700000000005200270237067504e3ff7100ffff000073008e000700000000005200270210067504e3ff7100ffff00007300d70007000000;
0x5800270266065804e3ffae00ffff00007b0043000700000000005800270266065804e3ffae00ffff00007b008d000700000000005800270266065804e3ffae00;
0xcc2068100020ab90408144027000b00d505c7033bff3900010000007b008e000700000000005800270210065804e3ffae00ffff00007b00d700070000000000;
0x20000995d04a3fb995cfed5056f0191feb091fe6f01b0a8012135211123112115211133013032ec3cd4f4e4100031ec3cfcec3cd4100c000759095701055903;
0x16161716322726343536323316141506220130ecfcecf4100031ecfcecdc101b185a035b125a091b910cc300c415c306114020001a000b00f0053d037503c300;
0x60098052304c7feac00020000ba8687b4b78442722d2e3181704f4f6d6d4f506f6f05b8b48786b92e2e2b76404f6f6e50506e6e500002363435262223061415;
0xe41000313232ec3c3cd43cd4ecdc1022191204070f0b131e0900151c228c16b81c1f1db90b1614b90c880f86100b880886070b010c0f001416132b4051002100;
0x884a1002a4a493a60216161333113700101100261123110706061537363603272626150116141506061125303912113912113912eef510eef4fec410ecc43cf4;
0x1002104e1fe1f01163201020101013301142001e4fe07231eaa272a05a0fc032a29aca103e2b9b8e21258038389490166f10901f7fef1664d89414889460144;
0xe4f432ec2f0031c4d4c43cfccccc3cdc101c11150f131c070b090d000ea00c1091199400a0040c0814a90a12008601081607214060001b00f005620400008100;
0x2311333521152111211521011d062223012e15015d000202360136b4593837113840001c001c000100c0ff1c00bd58540cb04b0130393911ee1032ee3cd410ec;
0xb00f005a2033dff5c000200001ff30501ee8fd101aaaa2ffe8fd7d49b2929b6b405973de8d6c7c7ec1ffc2d0279fe870174943d884c4e041632333610353335;
0x57032226391a220c570920572d3957130336092d1d1304301700062f3f23913cc50cc61023c526c62a0c8a0d268a270d0436301d1700062a302f3c4091003e00;
0xeb04b5b540cb04b5b540bb04b540ab04b01303912113939391711ee10ee10eee610ece4f4c4100031393917113912113911ee10ecd4ece4d4c4e4ecdc103f33;
0x33011e3527262223061415011e07061415011e1716171415062223012e1513263435013e17161415010e015938371138c0ff3f003f00010040003f00bd585b54;
0xa6c83b3b5b5d80d619dd71663a9457589a49adcc393e5d5c83d30e1ace6c61388f53cc8f3e3ffa8b3e3f7b01163233363435012e37363435012e012f34353632;
0x33010100001d9f8245702c318f5b6699780e7b664c542727a41d1da88e406d34358c5a659a77080f735a47502727a49302884b2e5b2d87854c2e5a2ea8039949;
0x9e00010000acac7d7cabab7cfa02ac7d7dacab7c7ead330126222306141516323336340130ecd4100031ecd4100c005c060c03c709b712000b0021048503d101;
0x179022434352626112311231123112101303911ecf432c410003139ecdcfcd4d4100e0b015d03055d07000e02068100c1040208124025000d00d50539043bff;
0x2e8c139703b92a13b91a1786162a0400200d06040c21272d30409a002f001406ac04e3ffba00010000e8beb8dd114e03e1f91f0666f9d5050401ebd78ebe8dc0;
0xf050f4040303917391712eed5fe10eefee42f003139123912393911ee10eed4eec610ccfcc4fc1030460010082d161024081d0608272408092721201d0d090c;
0x5d015d1820a607a506a5206a1f6a22492149204d1f4d213a203a20191f190d192604220c210a200d1f0a0d0a0c0a0b0a070a060a070d8a0c8a280f270f070f06;
0x40d3e160a639413aa89703dbd0daefba231115062223012e37363435012e012f263435363233011e3527262223061415011e011f161415010e17163233363413;
0x4000093fb838b70671dac7f5b873b373e543f5b5f1d1ea41819b7ac648e6a252a512f607308e0e8dbc87104bb888271830897a757605c653b7874418c504988;
0x125e3c4360364b60314936393f3c4231043033454824c90cc818c900ca390cca434a39c93048c9323f434245364060004c0038002f001700cd05e50600001b01;
0x32331616171614150606070622013039391239eed6ee1032ed10edfef6ee2f0031391712391239391132ee10eec4fdfe10ecfce4dc104d2a5f1e09065e4b1e09;
0x4112311232326262723171716160706141516322726343536323311231324363712343502262724222304060702141512161704322726262726343536363736;
0x36493b81ac892e43186069aeb06658576e7b7b7d07016d6d6c6c6d6df9fe9898f9fe6d6d6c6c6d6d07019884e35e5c5e5d5d5ee38483e25e5e60605e5ee28300;
0x81170567977673f4c4b3eecfe62fe6e6d6d06019a9805016d6d6e6e6d6dfbfe989afafe6d6d6e675e5e5de38583e25d5e5f5f5e5ee38182e55e5e5e66059b42;
0x1e5e4406092a5e303d4461370cc924c800c918ca47cc3430cb3124ca41cc3a3ecb3d2640430049002f001700cd05e50600001b01030044039cfe3360d1df494d;
0x16141506060706221724363712343502262724222304060702141512161704320130eed6eefd10eed6eefdfef6ee2f0031ee1032edfe10ecfcccdc104a120609;
0x6d6d6c6c6d6df9fe9898f9fe6d6d6c6c6d6d07019800041632333634352622230606153736323316141506222326261517262627263435363637363233161617;
0x19a9805016d6d6e6e6d6dfbfe989afafe6d6d6ecd058849d8fbfbd8468943427a409baba795428242a7e35e5c5e5d5d5ee38483e25e5e60605e5ee283980701;
0x60121403e0014000c00d5054606930327010200001cf2d1d0f41c1d7f221fae9f9daf202181f55e5e5de38583e25d5e5f5f5e5ee38182e55e5e5e676e6d6d06;
0x231133131301303911c43c3cd43217ec3c3cf41000313911ecd4ecd4e4fce4d41015116313620f630d0b62090362050901158100020dc90603090e12040a1007;
0x66065203ee0473010100005ee4011cfe5e42021cfe2f01d1fee401befd000100ffd505c972cb7172cb37c371aaa4ae4a04352311231123152311231103230311;
0x699bafec78b022301330159383711384000040004000100c0ff0400bd585b540eb04b5409b04b0030ecf4100031ecd4100401440304b300b402094031000300;
0x800bd585b540db04b540ab04b003032ec3cfc100031ecd4fcdc100804640500640108cd0004ce02060e40920007000300100629034605d70002000088fe66;
0x585b5419b04b540fb04b0159383711384000080008000100c0ff0800bd585b5417b04b5b540eb04b5b540db04b540cb04b015938371138c0ff08000800010040;
0xd900010000cacaca1006cbcb79fecbcb5e0223153325231533015d080670057002700170066005600260016011405938371138c0ff08000800010040000800bd;
0x10ec3cfc32cc3cd4100031391732c43cdc1014000f050908020304080c0d0e1214081006129c0a0ecf0c069c0004cf02030a0c0d22403e001300dd04db052700;
0xaaf0a8d5663b01a20387fdc3b601d5feae7dfefefafc7b02c348fe2f01ae7d00010403d921372135213727012115210721152107170121133039121139ec3cfe;
0x11090dad0395071181009510950111950b039505420e0f0e110c0e0f110d0e0f0f11100e0f0e11113940870013000f00d5054807000008000200f0aad366c7fe;
0x59ed051007ed051007ed0507ed05100758534b30ee10ee10ececf4c4ecec3c2f003139171211c4c4d432ec3cd4d410140e0a121c02060804000a0e050c0d0f10;
0xa0f0fd3dfcf80239fdc7021bfd350711210117012303211121152111211521112115015d0915bf15a01590119610850c8611771077116713405d01011580b222;
0x142026290d0400010a132c2b0d1a1f1d3c409e002b00130009001706e505baff660003001003f0fc9ed50581fe7f01aae3fdaa46feaad505cb01b6fe8b7102cd;
0x1139391211393912391739391211c0ecfcecfc102c10171910332319071f0710291d0400010a13231e201017142a2c2b2c8c26911a950d2695041a1e262a040d;
0x286a1c641364006a1356005913460921751c76157b2165156a21551957155a00572a4030393912113912391712391239391211c010c010ee10ecf4e410003139;
0xdc5fa13e33fdb60427072726222100101512160717371716322100103502260717161411002223012e27263411003233011e01095d015d0b287a1c761373007c;
0x1a00801669e44bc70e5feb8fe4340b8b8701a0148014340b2fc580467a25bdd80c6fe88fe504eaa66a257dd823b0179014f4e862727fdfedc5fa13d79270101;
0x121824000c30210f1b1521270f1504182400032109151b2d1d40ff002f0017000b00ee03cf05dd00dd00030058bf4b4b5bfe9ffe9ef6fe67c659bf4b4da50162;
0x140a130f120f110f100a0a0509050805070006000500040503050205be4030391211391239171211c010c4d4c4d41000313939393911c4d4c4d410301e122a06;
0x122f112f102a0f2a0e2a0a2409240824072006200520042403240224161a151a141a131f121f111f101a0f1a0e1a0a1509150815071006100510041503150215;
0xe4a0a4509450845074006400540044503450245163a153a143a133f123f113f103a0f3a0e3a0a3509350835073006300530043503350235162a152a142a132f;
0x10e17363233161415062223012e07062223263435363233011e015d015d0829b428b027b026b022b021b020b01fb456164a154a144a134f124f114f104a0f4a;
0x2f02955e86a7bc86619e4448995f86a7ba885e9d4690865259767f66558531c48552597680655486319303262223061415163233013e17163233363435262223;
0x20d0e9c0c0109d0009c0307d00518402e000f000b000405db050000d90002000077d6afa7e1838a8a7ed8afa6df7f87168886656a8458583787866569875a58;
0x5fefa0205d3fd2d02d3fda8d3fd2d02ae032115210111213521112311211521110130ec3cfcec3cd4ec2f003132ec3cfc32ec3cd41010060a15080c17000415;
0xd1030500010204054205069c0005060501029c0103040401009c010304039c022e4054000a000600a804db050000d9000200aaa6fb8301aa83017dfeaa7dfe04;
0x40fcdb05211521010135011502092259ed041007ed081007ed081007ed040758534b303917ecf4ec2f0031393232ec3cfc100b2304072400020801099c07a706;
0x60102019c000304049c0503040306009c062f4056000a000600a804db050000d900020000aa02fc6f01aa7001b2eefeebfef803fefa0205fefa0205fefac003;
0xed081007ed041007ed041007ed08100758534b303917ecf4ec2f00313932ec3c3cfc100b2300040924020706089c07a701d1040500020305064201020206059c;
0xe020f11161102104640c6001800d505c30400005200010000aaaac7fd1201b290feaa91feb0f803fefa4101c103fefa0205d935211501013501150135132259;
0xd41019030765050a660d1c0165001366110003101215030f1605030e090c02810d100914d30b120617d30004090b0f42080d0d020e080d080f10020f1116160f;
0x1900bd58540cb04b012259ed051007ed081007ed081007ed05100758534b3039121132ec3cd432ec3cd432e42f0031391711393912391712ec32ecfcec32ec3c;
0x231121015d005d0e11a910aa0ea50da612880c8710390e371228112810290e270d270c27050fb50fa00fa60f900f86284059383711384000190019000100c0ff;
0x4a027b9b337bc70139fec7019f0154b5fe0801c2febf79017b01bec3fe0801b4fe54a00160fec963fe8d04211507211521013301093301213521273521352111;
0x1021460008021f4e0b080912091921bd00bc010a8c161c87060f1201030c09030616031f191325404d0020006004e50456feae00010000339b7bb6fdbc0244fd;
0xe27262223010e15373632331614113311353632331614113311135d010322cf2260221fb63039171211391711c4dcec3cf432e4e41000313912c4ecf432ecfc;
0x6800020000d7fd4e4e4f4f504e1617940c0b393ca2fc8d02a8a8949148fd0a0656fe2a8f666291320f52452349291c20092523b89594878ab8ae112726222301;
0x1211391211ce10ce10ccdccce410003139113939ccdcccd4102a1824121e0003240c2ad5150f1b210f061527061b092127001940620029001d002d05c103e7ff;
0x123233363435262223062223263435013e015938371138c0ff2a002a00010040002a00bd585b5414b04b5b5410b04b5b540eb04b5b540bb04b540cb04b013039;
0x83814ba3576d028d6d50568d6d4f570b8265a2ddcb98d5dffed6b46590302424903748490f0ff402123233161415022223263407163233123435262223001011;
0x60600010304050a0c0700020705020c040a14405d000b00c1053b0577fe190001000004017b74cffefe7d74e05b0101c6a3d846feb1fef9fecafe623e1f2c74;
0x8f028f0b74097b06700570037f027f095a0c058003800a7a057005750476037003730a5a05500556035130403039391211ce10ccd4c41000313917c4d4100c08;
0x700c105710577fe9c00010000e302210395c004fd33fdc1c10549fdd502defaef034afda00241fcea04370109352115210109211521135d015d0b0680058003;
0xaa04f0ffe1ff01000083f97d06b6f8c105ef0afdf0d5049c23112111231121133032ececfc100031ecd4ecd4100800670501670308af00d604d702060f401e00;
0x3912ecd4d4d410241f23056812230c121f220515162304020b00011224061718191a1b1e0c18d50fd822d900161a0fda0800031e1f15020b3140cb0023002f04;
0x90009021f181e18564059383711384000240024000100c0ff2400bd58540ab04b01303939391711ee103232ecf4e43c2f003139171211391711393912391211;
0x17031602160111001123091a08190d180f1808170b1609150d140e130f120f110f100f0f0f0e0f0d0f0c0f0b0f0a0f090f080f070f060f050f040f030d020d01;
0x252e11372f0f0f69b687042133013e2307062223132303211337363435262223010e0737363233161415010e0323015d005d282311191c181c17171611151614;
0xe06fa038dfe2f000100007da6454091036ffc7801a1902e646608088d0505313a165c4a19fe91037903a58f1ca0093c3629c3b5c2bafe50221579761a371e1e;
0x322232626272622230614151632331212373613320130e4de10e4dcecfc100031ecfcecdc102604691d6a17690a26b107dc1a13db0d1a00db20144026002500;
0x364154bc010302396cb002fafe0a0a0f30213d44654fc4bd1104040e6b1009060c382a37406450cabe0c01020e6a370116161716323336343526222302020706;
0xdf190a05dd25e10010dd1f00e3021018121f0425072833405f0029001e000300f0053b03d501730003000053121c1d3f38415362fe21fe6ec195fd480f23263f;
0x1211ee10eed6edeec410ecf4fce4f410003139121139391211c0c03232ecfcccecdc102a0d6b22186c046b06112801020622101f0d18002a911ce00add15de18;
0xbcbf98805d902c95ae0250fdb0028b35353632331614150622051632333636350706222326343533333634352622230606352311012115211330393911391239;
0xf000300f0056403d501600003001d72904d404f43f0b01c1c7f22225b5b048a877187443f7040feb8027b5002826852627ea1ecfeb3b745914944883e7575b6;
0x352622230614151632012115211330ecfcecf4ecf410003139121139ecfcecdc101c0d6b136c076b19010d13001c9104dd10e00add16e100e30219402e001b00;
0x4e000100a08985a0a08588a173ddbfbedcdbbfbfdd1b047b50027c7d69687f7e69b3d0d0b3b3ceceb3580150fdb0028b2634353632331614150622173634;
0x31391211391211391211c0c0ececd4ececd41020161c0c6d0f1c1c066d02000102061f0c0f131620110110e50003030f129119e509224040001f00e705cf05;
0x31017f01919e3f01a8fdb2c7f7fed8d8f8fec6b1a8fdcf05070214110020210010350226213521151712141500222300343512363521152530ecf43217ec3c2f;
0x2d27434003013e00330006007b046f07e3ff7b000300008dd8fec2cbfe77fe8a013e01b82a018bb2b261b4fecaefddfe2201f0ca4c0161b2b2b2a18e81012f01;
0x452208372d0f08263d0d0800150f26071c3725000f062637343f258c191fb80a3107bb0eb9032aba2d862e191cb9123a0ea900128815861625a934000d0e3d25;
0x2d302c302b3081403039121139113911ee10eef410ee1032eec410ecf43cfce4c43cf432e4c4100031391211391211391139391211c4ecd43cfcd4ccecfc103f;
0x50f3f0e3f0d3f063f003f1d40f040e040e040d040c040b040a04090408030852b8530502f502e502d502c502b5030402f402e402d402c402b4030302f302e30;
0x15d01715d1d2f802e802d802c802f702e702d702c702f602e602d602c600f6f0e6f0d6f066f006f2f502e502d502c502f402e402d402c402f302e302d302c30;
0xb606013d363233161415062203163233013e35070622232634352133363435262223010e27262223010e1537363233011e21011d003233013e0307062223012e;
0xfe5e5a30019eaeb4979402b9996f81acdfefd58e5abe6554b66097a70201fbfdd2bd8fd8494df8a76ad06464c868b7cc0cb2fc0801e284d44a440eb99989a501;
0xa131a1d1f262c2b3c40e4002b0013000900bc049c04a2ff4800030029b4d973627b6618fe602727aa2e2e8b7f12c0bda8bb787877792c2aae3535c8bf5afadd;
0x39171211c032ecf432ecfc102c4517121029512312071d1f07100400010a13231e201017142a2c2b2c8c26b81ab90d26b9041a1e262a040d142026290d040001;
0x7f067f057f047b007f2166156a20561d551c5614592d3f0128704030391211393911391712391239391211c010c010ee10ecf4e4100031391139391211393912;
0x13660069285a1d5513560059262df02da019a82595199b267b257f247f237f227f217b207f1f7f1e7f1d7f1c7f1b7f1a7b157a0d7b0c7f0b7f0a7f097f087f07;
0x1015011e07173717163233001035012e0717161415062223012e27263435363233011e01095d015d1124ad18a2249a18951e89287a1c761374007a286a1c65;
0x2e6e48d3eb29299a754fc8e8282ab0fd2103608b3fa160f0eefe3635925f8b439f5df1110136367d1413a9973e672a5c14ac9341672919fe8903270727262223;
0x238c13950c238321000c880f86100019060402051a202f40860024002000d505ac03e3ff8f0002004ea83334c7feedfe78c64db34fa834333801140177c54d97;
0x4b01303917393912eef410cdfe10ecf4e41000313912391211391211391211ecd4ecfcd4ecdc1025161c090f26211c22011c0009221a00010509161922062581;
0xe1537363233161415010e010f06141533015d051c7607740674057404740b4059383711384000250025000100c0ff2500bd585b5413b04b5b5412b04b5410b0;
0x39bc43466e59315e35585782659c4404cacac40607082630585949e0b867c05e60b44e6d83333a5a5a37bef4013335231335013e37013e013f36343526222301;
0x130ccfcf42f0031393932ec3cfc100a00010503000407080481028300070f40620009000300d5050002000035010200fe0e01363c1519352f5656894c9fc238;
0xb500b200b00b6593837113840000a000a000100c0ff0a00bd585b5413b04b5b5410b04b540fb04b015938371138c0ff0a000a00010040000a00bd58540bb04b;
0x31ecd4dc1006000117030600029c040a40170005005e03db051f01d9000100009bfe65018f022bfafed70414a215cbcbcb0002133313112311333523015d03;
0xb080108000304050607090a0b000204020b05060708090a18402a000a007d061905d7ff3d000100009501c1fd5e03a6fba80205d921112311211330ecc4d410;
0x1406020556fe1f0001003bfd62502d7303baf9607d0600011b01197dc1fe42aefd73bd5c0401252707012301231533013039171211c4ccd41000313917ccd410;
0x90b0c191a1b1d1e24081c0f9721a904e6008a010fa916e6128a1308a90a1a011e070a130c1942191e1e11070408090a0b191e19110c0f020d0e40408a002300;
0xff2400bd58540cb04b012259391711ed0510073217ed05100758534b303939121139391232ee10eef6ee10ecf4ecfcc432c41000313917ccd4102412000a0708;
0x7fc3fe1f013c1972602c50260205163233013e132135231337363233011e35272622230602032115210307062223012e150159383711384000240024000100c0;
0x1d00f403db051001d900020012c3b74a018fad02a6892121a61615d3e3fe85fd8fc9fe847a1c1da4f005643597c6243f1701f889226d612f61342f643ababc3a;
0x12113939121139391211c0ecd4fcdcecd4ecd410003132c43cd4103c0f2d001e3c139c0c1b9c04229c39319c2a1e0c1b100113222d002a391f2e1f403f003b00;
0x5363233161716171617323336363507062223262726272627222306061513363233161716171617323336363507062223262726272627222306061501303939;
0x3043b454eb36f02a9565e9b0f07050a936e61b36962ac585e9b0f06070a926e61b36967a9565e9b0f06050b936e61b36962ac585e9b0f06070a926e61b369db;
0x2030405030103000f40380006000200c10560050000faff02004b3d060302043b454eb2534c3d060203043b454fb2da014b3d060202053b454eb3544c3d0602;
0x4302e0effd44035efeac02210133012101095d015d02007f006e0706760579027f02780170026d01631440303911ccc42f0031391711ccd41007060507050001;
0xb0c0c0908e8090b0c0be80a060000e8010600060203e8020405050201e802040504e803494086000d000600230425048d009e0002003ffa0f05c4fbee049afa;
0x100758534b30393932ec3cf4100031391211391132ecd43cfcfc100e6e0c6f070a056f00030702050c090ea60007e7040b0209420d0707e8080d070d090ae809;
0xbf23042bfe2d01d3fe232bfe2d01d3fe250435011501011513350115010115012259ed041007ed081007ed081007ed041007ed041007ed081007ed081007ed04;
0xe8050708080c0be80c070807e80d090a0ae80b090a090c0de80c494086000d000600230448048d00c10002000052a201bff4fef4febfa20152a201bff4fef4fe;
0x3cf41000313912113912ec3cd4fc3cfc100e7000036f01070a6f08000501080c0ea60007e7030a050c420001010504e805000100e806020303e8040203020506;
0xfe2d012bfed501c101013501150125010135011501132259ed081007ed041007ed041007ed081007ed081007ed041007ed041007ed08100758534b30393932ec;
0x5190402060a83000408114023000b0007000300fe0014070000ec0003000c010c01bf5efe525efebf0c010c01bf5efe525efe2304d3fe2d012bfed501b201d3;
0x6b07680500001000ffff00fefefefefefed5d5adfad5d5a902d4d49603231533252315332523153325303232ec3c3c2f0031ecd4ecd4fcd4100c081909011900;
0x501070000000000320027025e07d905e3ff7300ffff7501bc000501070000000000240027025e07680500001000ffff7501bc00060107000000000024002702;
0x391232ecd4c4c4d4ecfc101a100d1915080400111c0206150a10121809ad0395071881009501110395051f403b0019001000d5050c0800007300020075012701;
0xfe8167b101bf0141fe4ffed7fbf80239fdc7021afdfa07332100101100202317210010110020211521112115211121150130ee1032ecf432ecec2f0031393939;
0xa9000c880f8610000807314084003300270006007b04c307e3ff71000300dffedffee0fee1feaa7c016d0170017c01aae3fdaa46feaad5058141014001c0febf;
0x32ece4c43cf432e4100031391239391211c4ecf4fcf4ecfc1034451c122b510912314b0708000f093122160006348c1319b81f2522bb08b903281316b90c2e08;
0x507062223012e015d01715d05096f086f076f066f006f05093f083f073f063f003f0735f035d035cf359f3570355f353f254030391211eef410ee1032eec410;
0xd06462c86ab7cc0cb2fc48030eb99989a4020a07263435363233161415062225003233013e17163233001011002223010e27262223010e1537363233011e2115;
0xddfe706b6c6f38011401130139016d6e6d6e2c2aae3434c7be5a359eaeb3989402acac9395abac94b0fa0801e28fe84e42d38cf11101effef18cd14751f2a06a;
0x30079020008e901000001000090790200fc00042115211130ecfc100031c62f000104e900a902b61000030079020004e9010000010000e9c7c8e8e7c9c9e787;
0x119000704030719060a090c8103099e0006134027000b000500d5056d03e903ae00020090790200f800082115211130ecd4100031cc2f00010400a902b50f00;
0x6d03e903ae000200c1fe3f01adadc1fe3f01ade9035281a4d39a015281a4d381010333133523050333133523013032ec3cf4100031ced4fe10ccd4ccfcdc100c;
0x81a4d300011323031533251323031533013032ec3cf4100031ced4eedc10ccd4ecdc100c0019010403010619070a090c8100069e0309134027000b000500d505;
0x3331335230130ecf4100031ccd4fcdc100601190004030681039e000b4018000500d505d301e903ae0001004001c0feacac4001c0feacd5055281a4d39a0152;
0x5281a4d3040113230315330130ecf4100031ccd4ecdc100600710104030681009e030b4018000500d505d701fe03b200010000c1fe3f01ade9035281a4d38101;
0xee10c4fcc4d4100031c43cfc3cd4dc100c080004720105090c0a049c080204ea0602ea00144029000b00070003006f04db059600d9000300003f01c1fe98d505;
0x304060806040800060211402200070003007506ee0323fe06000200aa4102f512fef66f04fefa0205fafdf6f6f6f6df0221152101231533112315330130ee10;
0x7f0456fe3d00ffff2d04d3fbdbfb25043903c7fccffc81050cfe0cfef4017ffe810181017ffefa0107093039123911ccd41000313917ccd41008070506000102;
0x2010f0013402b000300f005cd02e3ff89fe01007501730003010700000000003c0027024e07e7040000fcffffff00005e008e000700000000005c0027021006;
0x2300b204bc0452005e00020000f3f9f005a05cfca02d02230133012259ed051007ed05100758534b30e4e4100031ccd4100403010491008c02420300030f0201;
0xa0b240309181c131d2a1b151c3014242a0412000c1e3021eb1db927ec0feb13b92d1d010f13030a0b142d120c1d21021c27001e2d04151b0903494083002f00;
0x3939121139391239171211c010ece4f4ece4d41000313917121139121139391239391211393912391712ece4f4ece4dc103018731c282a740673022824020301;
0x28262425ce72cf7b0336323316141506222326341316323336361737273736343526263727072726222306062707170706141516160717370130391712393911;
0x27cf73ce3874403a763ece73cf25252628cf71cf39733f3e773bce73d1e1039c71719d9e70729b5c753c407437cf73cf26262525cf71cf3d783a3d743bcf72d1;
0x6e056f00030207a600e70402420600e8010600060203e8020405050201e802040504e803254047000600230473028d009e000100009d9c72709a9a707cfe2425;
0xc10001000052a201bff4fef4febf23042bfe2d01d3fe7302350115010115012259ed041007ed081007ed081007ed040758534b3039ecf41000313932ecfc1007;
0x534b3039ecf410003139ec3cfc10077000036f010507a600e70305420001010504e805000100e806020303e8040203020506e805264049000600230496028d00;
0x9b001900150014064a0400002f000200000c010c01bf5efe525efe2304d3fe2d012bfed501c1010135011501132259ed081007ed041007ed041007ed08100758;
0x32e63c2f00313939121132ee10c43cfcc432c43cfc101a4c060a0017080804140f00080216040f0e110105bc0009970eb116be180e871000a9030718140b2840;
0x16101a405938371138c0ff1a001a00010040001a00bd58540eb04b01593837113840001a001a000100c0ff1a00bd58540ab04b013039391232ee10ee10eefeee;
0xb9b3adb0b0b907feb94a0423153301011d06222315013b36343533352311231121112311015d005d081bef1bd01ba01b8010800f801b501b3004191018101710;
0x80a0005020dbc09119700870409a90b0f04130821408400150014064a0400002f000100e9b20163685099afb74e8fd1032ffcd103a0fb6004b9b9f9014d63b0;
0x3711384000160016000100c0ff1600bd58540ab04b013039391232ee10eefe32e63c2f003139391211ee10c43cfcc4c43cfc10164c0e12011008080c0a010803;
0x3523112311211521011d06222111231121015d0817ef17d017a017800b800a801750173011405938371138c0ff16001600010040001600bd58540eb04b015938;
0xab9081000b9061220403e001300d505c7033bff3900010000abbb4e8fd1032ffc8f6368507b05ecf91406aeb0b0b9d1fe2f014d63b7feb900024a0236343533;
0x2135211121352111231121253032ee1032ee1032c41032c4f4e410003132ec3c3cfc32ec3c3cd4101403070b59050957010d1159000f14c202810c0a0e020004;
0x104008302b7120003004603ae014802db000100e1fd995cfea401991f029aa4015cfedf6f0191fe6f01b06f0191fe6f0191feb091fec7032111211521113311;
0x315332530ecfc100031ccd4ecd4100600190104030683009e030b4018000500fe00d30112ffae000100fe4603d3d3db2315331330ecd4100031ecd410040019;
0x100031ced4eedc10ccd4ecdc100c0619070a090700190104030c8300069e0309134027000b000500fe006d0312ffae0002004001c0feacfe5281a4d300011323;
0x3f0033002700230017000b00f0054c0ae3ff71000700004001c0feacac4001c0feacfe5281a4d366fe5281a4d39a021323031533251323031533253032ec3cfc;
0x490e3d1b0d31150d030e0f0d093d0d432b31274349254c9118248c12263a8d0c349206461892288d1e922e0c920040422724270f262526250f244440ae004b00;
0x59ed051007ed05100758534b3032ee10eef6ee1032ec32e43c3cf432e4100031391211391211ee10eef6ee10ee10e4ecc4d4ece4fc104c0b210e1b0d2b37150d;
0x32272634353632331614150622015938371138c0ff4c004c00010040004c00bd585b540eb04b5b540db04b5b540cb04b5b540bb04b5b5409b04b5414b04b0122;
0xf4082634353632331614150622173634352622230614151632012634353632331614150622132301332136343526222306141516320136343526222306141516;
0x838295958284949102636355576363579fbbbaa09dbbba9eb203646357576263561fa05afca02504bab99f9fbbbc9e74f9bbbaa09dbbba9e5563635557646457;
0x27026d07680500001000ffff0095838295958284947fdbbcbbdbdbbbbbdc9ffd96818494948482958e05f3f9dcbabcdbdabdbbdbe002dbbcbbdbdbbbbbdc7f95;
0xbc000401070000000000240027026b07680500001000ffff75019e000701070000000000280027026d078b040000c900ffff7501bc0007010700000000002400;
0x6b071f020000a200ffff75019e000601070000000000280027026b078b040000c900ffff75019e000301070000000000280027024e078b040000c900ffff7501;
0x3010700000000002c0027024e07580200000600ffff75012fff07010700000000002c0027026d0760020000feffffff75012fff04010700000000002c002702;
0xd905e3ff7300ffff750127010401070000000000320027026b07d905e3ff7300ffff75012fff06010700000000002c0027026b07ba0100003b00ffff75012fff;
0x70000000000380027026b072905e3ffb200ffff750127010601070000000000320027026b07d905e3ff7300ffff750127010701070000000000320027026d07;
0xc10001007501ee000601070000000000380027026b072905e3ffb200ffff7501ee000701070000000000380027026d072905e3ffb200ffff7501ee000401;
0x60066063f03ee04c100010000a0fb6004b8b8c1231133135d0105057005600550054005100b4030ec2f0031ecfc10044600080102bf00b72000030060047901;
0x2307272313330159383711384000070007000100c0ff0700bd585b540eb04b5409b04b00303932ecf410003139ecdc10070675020407b300b40205040c403700;
0x856077716561507000e010f1ced0b15c3040719c312040b0f071201040b0e071200244063001b0037064a031d05b6000100f5f588fe66068bb4b48bf594b601;
0x1593837113840001c001c000100c0ff1c00bd585b540cb04b5409b04b0030391211391211391211391211ec3cd4fc3cfc1000313939393911ecfcecf4101c76;
0x8752491314375a0540265b66027d0224260d2116392540265b66027d0224260d211639fc01262223010e3337363233011e011f163233013e2307062223012e27;
0x4000100c0ff0400bd585b540eb04b5409b04b0030ecfc100031ccd41004000104ee00ef02b72f000300f6052b036205d5000100001c93875249131437211c93;
0xecd43cf4100031ecd4ecdc100e0056010856070eb3000704f00b0e4057000d00480639032905c70001000094f605aafd5602d521152113593837113840000400;
0x33011e33135938371138c0ff0e000e00010040000e00bd585b5411b04b5b5410b04b540fb04b00593837113840000e000e000100c0ff0e00bd585409b04b0030;
0xfc100031ecd4100400640104cd00ce0209402c0003001006660244059a01010090908f4c4a4b4b48069e91919e0a760d605657610b76c7262223010e33373632;
0xf10fc109f215c10311405f0017000b0006071203e104ee00020000cc1006cccc9a012315330159383711384000040004000100c0ff0400bd585409b04b0030ec;
0xcb04b5b540bb04b540ab04b0159383711384000180018000100c0ff1800bd585b540cb04b5409b04b0030ecf4ecf4100031ecf4ecd41018125606780c560018;
0x9f73739f9f73739f7a5840415757414058980216323336343526222306143736323316141506222326340159383711384000180018000100c0ff1800bd585b54;
0x21303912c4fcd42f0031ccd4ecd4dc10140903271000130006f30d0a06090e401f0013000000c10275fe23010100009f9f7373a0a073405857414057583ff405;
0x70003006606ae03ee04f00002003d571e2e300f11830c0c5b5930693e2d2b3c3b2f4a222b572e76783637540227263435363233161635272622230614151616;
0x384000080008000100c0ff0800bd585b540eb04b5409b04b003032ec3cf41000313912113911ccd4dcd4100807050301050003070408b30004b4020611404200;
0xecd410141127040a000100f40ef3070a0e0b0f40200013000000c10275fe4c0101000088fe780188fe660689dfaa8187f8b2fc02230333032303330159383711;
0x10069305d570a0a850f0f2e2e1f583d35737a1e44261f3e2036372b2d77b8013634352622230606153736323316141506063321303912c4fcfc2f0031ccd4c4;
0x11384000070007000100c0ff0700bd585b540eb04b5409b04b003039ec3cf410003139ecdc10070175050307b30104b400030c403700060066063f03ee04c100;
0x10504000e0b010403088100950600060203040a0b0c1e403f000d00d50575040000f2ff010088fef5f57801ee04f58bb4b48bf5b60103333717330301593837;
0x5efcd70277fe503901cbd337270711211521110117251133135d01020f500f30b430391711ece42f0031391211391211c43cfcc4ec3cf4100e7900093a070c1c;
0xd4100c00077a0a0801057a04000a090104030697000602030408090a1a405e000b0014064802000002000100009e6e6a3b02aae3fdeefe6fdb98fdd505e14d94;
0x5d090df00de00d700a7a04730d600d500d400d1013405938371138c0ff0c000c00010040000c00bd585410b04b01303917ec2f0031391211391211e43cfce43c;
0xffff75018b000801070000000000360027026d07a204e3ff8700ffff008d6a589a02e3fc8d6a5aa6fd1406c54a7bb8c94c7db8c7372707112311071737113313;
0x5d0027026606db0300005800ffff7501be0008010700000000003d0027026d071f0500005c00ffff00001700e000070000000000560027026606c703e3ff6f00;
0x112311131123110130ecd4ecd410003132ec3cdc100802060500040805f50400f5010d401c00070003009805ae01a2fe0401020000001b00e000070000000000;
0x1c0d110a320419160d0f0413190107070b0e95128100950d0ba909102040670019000c00d505ba0500000a00020000f6020afd0004f6020afd9801aaaaaaae01;
0xbf0ebf0cbf0bbf0abf09bf119f109f0f9f0e9f0c9f0b9f0a9f099f031bb01b7f1b2028403032ee10eef6ee32c62f00313917c410ecf4c432ec3cf4101a790008;
0xcbfee1fe1f013501f3b0fe5001cbc9c960fe50fe69fe9601b101a001d321001011002033112115211113333523110129001011002021135d015d1011bf10bf0f;
0x7b281e237b0f1e23237b241e231e25267b255e40270128000e0014067504e3ff7100020017012c012e011801eafd901dfee30190bc0296fe7efe80fe97fed505;
0x51f222325281820210c12272629b1231b8c15b9091bb903230f031e23081f20212225262728421f2020211f201f222322272828252425272827261e231e2827;
0xe1007c9081007c9081007c90e100758534b3039171239123912ee10ecf4c4ec100031393912113939123917393911ecf4ecfc1029451812065112120c060f1e;
0x2275217520752266216020602158205825462536282a272d262d2529242f232f22281f2b251676405d01012a3fb22259ed081007ed051007ed0e07ed081007c9;
0x7a1b7a157b147f137f127f117f107f0f7f0e7f0d7f0c7f0b7f0a7f097b037a027f017f007f21622062215a205a25452446253624362827272626262425232513;
0x583246030517251733272527052717163233003435002223001415121613263435363233161415062223012e015d005d272af02aa02278217620761e7f1d7f1c;
0x3701faff3701c9feffade0fe8f2601bc7abcdedebcc3d810119303d9fe214d017fe4b5190121c1fe9f2a3412dd1401e5fee7e6e4fe727e0936ae9192aeb9a729;
0x5e008d000700000000005c00270266067f0456fe3d00ffff7501730004010700000000003c0027026b07e7040000fcffffff0062616f91cc5c636bb40505;
0x30ecd4ecfcf42f0031391711ecfc3232ecfc101604001c010a0d3f061912010403090f150b8100f602950d09950e1b403d0015000c00d5058d040000c9000200;
0x2704aefee2dcdce1f8fed5058e999a8dfecacafefbfffe0101fbfecac92326343536323311132311012b0414150432331133135d0104175f173f171f170f0940;
0xe4e4ec100031ecf43232ecfc101d460208000417470b12111d9703bd01b8088c0e00b91a0805b9141b403e001c0010001406a40456feba00020091868692d1fd;
0x3802b17bccffffcc7bb13ab9b97301363233161415062223263401262223021011123233013e1133112311255d01041ee01ea01e801e60094030eec610ecc4f4;
0x100031c4d41004000104029c00b611000300d702db052d02d900010000e7e7cbcbe7e7cbeb0161bcfef8fef8febcfe6164a2fdbe07aefda8a79292a7a79292a7;
0x301020104059c040607069c0506070704039c040708089c090708070a0b9c0a4d4085000b00c5049c053f001901010000aad702fefa0205d92115211330ecd4;
0x534b30391732cc3cd4100031391732cc3cd4100c06080002080103040507090a0b0c090b030508000102040607080a420001010a099c0a0001009c0b0102029c;
0x17638fec8017635fe35fe77c90137fe9c0501013701012701010702092259ed081007ed051007ed081007ed051007ed081007ed051007ed051007ed08100758;
0xb007c017c035d067c080b9105f709dd0204dd0309dd000718402c000a00df05c5029c0289000100cb0135fe79cb01c9017935fecb017937fe35fe4c04cb01cb;
0x24404a001800f005b4029c025e000100006e2bfd27742963020a03d7fdcd89e6dfcc9c21153311333735071133133032ee10ecd4ececf4100031e4fce4f4dc10;
0x5100758534b30391211ee10ecfcecc4f41000313911ecc4d4c4dc1019030e15017e080e001991120fdd0bf702dd000fdd0e000204420406067d170004067d00;
0x3101381f6e720e0338b5feae9139854d487a34556858013f22aafda8010c01060114151632333636350706222326343500373635211521012259ed05073217ed;
0x7e10267e1914001316299123f820dd1cf706f809dd0d15dd1320dd1f09dd0a131500274048002800f005cd028d026200010030e4fe8b6c841c1c7b232351425e;
0x2634353632333523232634353632331616352726222306141516160130391211ee10ee10ecd4ece4fcece4f410003139393911ecd4ecd4c4c4dc1029091f1403;
0x3a3c3f6c4c4a464f1a1b791415867c526d1260045aa9903780495166285f64615e5e566c6f786d437734467d39b1be655c0c0206141516323336363507062223;
0x270000000000f0002700f0053f07e3ff8900ffff64fd8b040901070000003503bc00270000000000f0002700f0057f07e3ff8900ffff6045637612117317123d;
0x2a0027026d078b05e3ff7300ffff64fd8b040901070000003503bc00270000000000f2002700f0057f07e3ff6200ffff64fd8b04f100070000003503bc00;
0xffff75012fff0b010700000000002c002702500795010000c900ffff00008b00da000700000000004a00270248065a0456fe7100ffff75011b010a0107000000;
0x260027026b072705e3ff7300ffff00001700dd00070000000000560027027b04c70375fe6f00ffff00008b00dd0007000000000036002702f005a20475fe8700;
0x75012d010801070000000000260027026d072705e3ff7300ffff000089008d00070000000000460027026606e703e3ff7100ffff75012d010401070000000000;
0xb9705b8168c100db91c1600b922f90109d3030724404a00240018001406f404e3ff7100020000008900e000070000000000460027026606e703e3ff7100ffff;
0x1123153315333521352111015d010326a026802660b63032ee3cfdeec410ecc4f4e4ec2f0031c43c17fcc43cf4ecfc10254513121947060a08080003040c1f02;
0xfcfa7d93937d4e01b603a79292a8a89292a7c7fdb17ccbffffcb7cb13ab89a9ab84601bafea203062223263435363233161401163233121011022223010e3523;
0x8302e5fd1b02642115211330ecd4100031ccdc1004000104029c00b61100030083027f02df016400010000e7e7cbcbe7e7cb15fe6144010801080144016164a8;
0x22d312203a401c013100f0058f04e3ff00000100fe4603d3d3db2315331330ecd4100031ecd4100400190104008302b7120003004603ae014802db00010000a4;
0x3912c4c4fc32c4d43c2f212a2600191c0d110811071326202c0811090d030a101226232921222b3209298c1d912f9504ae00a1011d9516ae1aa11909d3072b10;
0x4b5b5417b04b5b540fb04b5b540db04b5b540cb04b5409b04b013032ee3cdd32ee10eef6ee10ecf4ecf4e432c410003139391139391239171139121139391239;
0x6c246e236f226f216f206f1f6b1469136f126f116f106f0f6e0e6c0c691454310b020b010e000e7a4059383711384000320032000100c0ff3200bd585b5418b0;
0x800322d9d2c9f2b9f2a9f299f289f279f269f259f249f239f229f219f209f1f96139f129f119f109f0f9f0e9f0d9f0c9f0b9f0a9f099f089f079f2d69276925;
0x35363435263433372303002223010e1537363233011e21072117161415010e21072107062223012e15015d005d0a1f67156a1e53155509200820091008100900;
0xbbc85a69d56205b962ec3601289c37c201018b37d328cbfeed60b9595ba9669dca208afe38be0102010102e6fd37410220ca9d66a95b8f041632330012333723;
0x1008046405006401080206ce00040d40a50007000300d90529030e05d700020047220101017b172f23202f177b030122014848d3695acabb7b182e20232e187b;
0x100c0ff0800bd585b5417b04b5b540db04b540eb04b015938371138c0ff08000800010040000800bd585b5411b04b540eb04b003032ec3cd4100031ecdcfcd4;
0x59383711384000080008000100c0ff0800bd585418b04b005938371138c0ff08000800010040000800bd585b5419b04b5411b04b015938371138400008000800;
0x10300030211407f000300f605f002ee0473010100cbcbcbd905cbcb79fecbcb5e0223153325231533015d0108067005700270017006600560026001601140;
0x58540eb04b0059383711384000040004000100c0ff0400bd58540cb04b002259c9051007c905100758534b30ccf4100031c010c4100403030104fa0200420300;
0x99e4b93702230333015d015d06012f002f011f001f010f000f090267016a025602460236022501250215020620405938371138c0ff04000400010040000400bd;
0x313939393911ecd4ecd4101e09560718561607000f01101efa081bc31304c30c1708030001070c13030f1016214075001d00e9054a030e05b6000100f8fef605;
0x5938371138c0ff1e001e00010040001e00bd58540eb04b00593837113840001e001e000100c0ff1e00bd58540cb04b00303917121139171232ecd4ec3cf41000;
0x53b225467027d28200f221739303d2456677d28240c1f1939fc01262223010e33013d363233011e011f163233363423011d062223012e27015d021a1f0b10b4;
0x4b30ccf4100031c010c4100403030104fa0100420203030002030201114089000300f6058b02ee040c0101001077640629330c0d1e1b107665062d320b0e2139;
0x62a405938371138c0ff04000400010040000400bd58540eb04b0059383711384000040004000100c0ff0400bd58540cb04b002259c9051007c90510075853;
0xee04cf0001000801f8fef605e699c4c701032313015d015d06032f002f031f001f030f000f0e01af00af019f009f015500550143013501240024011200160106;
0xbd58540eb04b0059383711384000070007000100c0ff0700bd58540cb04b003039c43cf410003139c4d4100706020407fa020500040a4077000600f8053103;
0x15d0009042d012f002f041d011f001f040c010f000f134059383711384000070007000100c0ff0700bd58540eb04b015938371138c0ff070007000100400007;
0x4b540cb04b00303932c4f410003139c4d4100701050307fa000104030a4086000600f8053103ee04cf000100b2b2f6fef8058ba6a68bd3bca201230727231333;
0xbd58540eb04b015938371138c0ff07000700010040000700bd58540eb04b0059383711384000070007000100c0ff0700bd585b540bb04b5b540ab04b5b5409b0;
0xf6feb2b20a01ee04d38ba6a68bd3a201033337173303015d0009062003220020061003120010060003030000134059383711384000070007000100c0ff0700;
0xb04b0130391232ec3cd4fcf4100031391132ecc43cd4dc100e0c0408065d000a0c010e9103f7090105dd070b03001640d4000d000200df05f4029c023f000200;
0x100c0ff0e00bd585b540eb04b5411b04b005938371138c0ff0e000e00010040000e00bd585b540ab04b5b540bb04b5b5411b04b5b5410b04b5b540fb04b540e;
0x51f021f011f00130d0f0c0f0b0f080f070f060f050f020f010f00010b03bb03ab038b03690359034601490139012f011d010b5440593837113840000e000e00;
0x562fe908787a6163501cbfedd0135213523152315331133032101095d015d1e00b500a5008400650d5b00530d4b0047003500220d1f0c1f0b1f081f071f061f;
0xe00bd58540cb04b003032c4fcf4100031ecd4ecd4100e0056010856070efa0bc30400070e406a000d00f80539030605c70001000079baba6de4fd1c025dfe66;
0x3840000e000e000100c0ff0e00bd585b540fb04b540eb04b015938371138c0ff0e000e00010040000e00bd58540eb04b00593837113840000e000e000100c0ff;
0x4000104fa0200b611000300db0566020e059a010100007a7b7738373936f8059f908fa00a7610615253630d76c7262223010e3337363233011e331359383711;
0x2000000030100000000000000010000060100001a010000010003001400000000000100020000000000cddb05cccc9a012315330130ccf4100031ccd410;
0x3231302f2e2d2c2b2a292827262524232221201f1e1d1c1b1a191817161514131211100f0e0d0c0b0a0908070605040300000100000000000000000000000000;
0x71706f6e6d6c6b6a69686766656463620061605f5e5d5c5b5a595857565554535251504f4e4d4c4b4a494847464544434241403f3e3d3c3b3a39383736353433;
0xb1b0afaeadacabaaa9a8a7a6a5a4a3a2a1a09f9e9d9c9b9a999897969594939291908f8e8d8c8b8a898887868584838281807f7e7d7c7b7a7978777675747372;
0x7e001a00040020003a0000003e020400e0dfdedddcdbdad9d8d7d6d5d4d3d200d1d0cfcecdcccbcac9c8c7c6c5c4c3c2c1c0bfbebdbcbbbab9b8b7b6b5b4b3b2;
0x601a00020000000ffff02fbca25652248222b221e2206222221ac203a2030202620c003a903dd02c70292017e01780161015301420131011f0111010701ff00;
0xd8ff0000f5ff0000e3ffffff01fbca25602248222b220f2202222221ac20392030201320c003a903d802c60292017d0178015e015201410130011e010c01;
0xfa0000000000fc000000f4000000380000000100bf05efda00005fde71de000000006adf56e085e096e00000dbfcf6fc0000000014ff68ff43ff00005effa0ff;
0xa9009d008b008e008600e7009600bd0085008400a300ac00000000000000420100000000280120010000000000000000020100000000fc00fa00000000000000;
0xca00c8006500cb006400900063006200ae00c700c900ad00a200f500f400f300aa009e00f000dd00c300880097008d00f200f10093008300d9008a000001a400;
0x73007200700071006f00a0006e006c006d006b0069006a008900ec00ea006800d400d300d5009100ef006700af00d100d000d2006600e800ce00cd00cc00cf00;
0xe400e300fa00f900d600f800ff00000000000000fe00fd00ba00ed00eb00810080007e007f00a100b8007c007d007b0079007a007800e9007700760074007500;
0x9800ab000000000000008700c20082000000c500b500b4000000c400b700b600000000000000b300b200de00d800df00dc00db00da00e000d700;
0x350300008b0200008b02000000006600cd04950094000000000000008f009200000000000000a5000101000000000000bc0000000000ee00990000009a00a800;
0x1705870017050000b202db008b026400e3029e008b02d900b4063d000004a4001f03b0001f03c500330281003d0671009a07aa0017059e00b406c500ae033501;
0x79058700000893003f04d900b406d900b406d900b4069e00b202f000b202810017058b001705a80017058f0017059e001705640017059c00170596001705e100;
0x4c06c900d30473004c06c900fc05c900e706c9007504c9003f0596ff5c02c9005c02c900040673003306c9009a04c9000e05c900290673009605c9007d051000;
0xe704aa000004ecff0004d900b406c7001f030000b202b0001f035c007b05fcffe3043d007b054400e90710007905b200db05faffe30487001405c9008f057300;
0x1405ba0014057100e504ba001205ba00cb07c1003902ba00a204dbff3902c1003902ba001205710014052f00d1027100ec047100140571006604ba0014057b00;
0x96051000790510007905d900b406000117050401b20200011705580033043d00bc043b00bc0456008b063d00bc04ae001205370023036f002b04ba004a037100;
0x39027100ec047100ec047100ec047100ec04710066047b00e7047b00e7047b00e7047b00e7047b00e7047b00e704b200db0573004c06c900fc05c9000e057300;
0x1705c300000439000004ae001205ae001205ae001205ae0012057100e5047100e5047100e5047100e5047100e504ba001205f4ff3902deff3902c7ff39029000;
0xb406d900b406dd00aa0666004c060800cb07d900b406d700000473010004270100081b0100081b010008ba000a059e0017053301b8045c00000481001705ac00;
0xb406350135038f003f044800e5047b00db074e001d066000c5037300c5032f002b04e1ffb6049c000e061900640568002304ae00170552001705d900b406d900;
0x2504000000080000000471002f0873008f0873004c06100079051000790500001705ec000008c100e5049e00e504faff5a05d900b4061f0017053d001905d900;
0x8b02db008b02390000042f000a052f000a05c10033039e0033035e00170589fe5601fcffe3043d00bc040600f403d900b406b2008b02ae008b02ae002504ae00;
0xdb05b200db0573004c0673004c0673004c063b005c0206005c02feff5c02a2005c02c9000e05c9000e0510007905c9000e05100079057100bc0aae002504ae00;
0x2b048700140502004602f2ff7f04c10000044c010004f000000423010004ee0000049a010004c7000004d5000004b6000004c1000004c1003902b200db05b200;
0xc1078900c107620035035e003503890035031901b406d900b406ba001405c900d7043d00bc04fcffe3047100e5040a0033060401b202580033045c007b056f00;
0x4d700000400001705db008b026400e30271001405710066047300960571006604730096056f002b0487001405c9005c0271001405730033066200c1078900;
0xc0100000000000000000000000000000000000000008f002bff00000000000002009a010004c70000043f003503cf000004cf0000040c010004b60000047301;
0x1f001e001d001c001b001a0019001800170016001500140013001200110010000f000e000d000c000b000a000900080007000600050004000300020001000000;
0x3f003e003d003c003b003a0039003800370036003500340033003200310030002f002e002d002c002b002a002900280027002600250024002300220021002000;
0x5f005e005d005c005b005a0059005800570056005500540053005200510050004f004e004d004c004b004a004900480047004600450044004300420041004000;
0x7f007e007d007c007b007a0079007800770076007500740073007200710070006f006e006d006c006b006a006900680067006600650064006300620061006000;
0x9f009e009d009c009b009a0099009800970096009500940093009200910090008f008e008d008c008b008a008900880087008600850084008300820081008000;
0xbf00be00bd00bc00bb00ba00b900b800b700b600b500b400b300b200b100b000af00ae00ad00ac00ab00aa00a900a800a700a600a500a400a300a200a100a000;
0xe000df00de00dd00dc00db00da00d900d800d700d600d500d400d300d100d000cf00ce00cd00cc00cb00ca00c900c800c700c600c500c400c300c200c100c000;
0x1010001ff00fe00fd00fc00fb00fa00f900f800f600f400f500f300f200f100f000ef00ee00ed00ec00eb00ea00e900e800e700e600e500e400e300e200e100;
0x343663053935343663056f7275450464657265746e6563646f697265700e6e6568707968746673090d010c010b010a0109010801070106010501040103010201;
0xb601ff00930058002200220022002200000000003936343663053836343663053736343663053636343663053336343663053236343663053136343663053036;
0x3a0cfb0bb00b580bdf0a1f0aae09730952091609ee08cf086508fc07b7074c07e1067e060506820545050305de04ca04b40498046e042104f603b20383034f02;
0xb9166d162216d615401518150315e114b1148b145014eb138a13bd12e01170112911f1107510eb0f850f450f000fac0e2f0e0d0e7a0d3d0d140de60c930c690c;
0x16220922fc21ef21e22142213521f32072205b20e81f771f871eba1d9d1c001cc41b871bd81aa11a521a041ab31977191619f818801843181b18df177b172317;
0x532533258f243424cf23942368235b234e234123342327231a230d230023f322e622d922cc22bf22b222a52298228b227e227122642257224a223d2230222322;
0x4832cf31503121310531bd304130872faa2e522e0e2ea02d502db12c8f2c442cd32b7a2be92aa32a5c2a252a5f29c32858281328b72790274b27ba2614268125;
0x1c390f394a381c380038eb37a9374337cd3693365b36cf35ab359e359135673539351c35ff34d134a3348f347a34e63397338a337d33703370334633df327a32;
0xfe3cdb3cce3cc13cb43ca73c5f3c223cf43bc43b8e3b5e3b083be53aa03a7b3a1c3aef39d239c539b839ab399e399139843977396a395d395039433936392939;
0xff43b2435f43f742aa4245426b4156414041e240d540c840bb40ae40a140944087407a406d405c404b403a40dc3f8d3f613ffd3ee73e983e553e483e3b3e633d;
0x4b002a001000000029001000000027001000000026001000b7ff25001000d3ff2400100078150a00001894070100862d00000100000000003f452a45db445544;
0x3a00100088ff3900100044ff370010000000350010004b003400100000003300100039003200100000002f00100000002e00100072002d00100000002b001000;
0x1000dcff5c00100000005a001000c9ff5900100000005500100026005200100000005100100000004900100000003d0010000dff3c0010009aff3b001000adff;
0x9000100000008900100026007d00100026007c00100026007b00100026007a001000260079001000000078001000390067001000000064001000d3ff6200;
0xe50010003900d20010003900d10010003900d0001000d3ffc9001000d3ffc70010000dffbb001000dcffba0010003900af001000d3ffae001000d3ffad001000;
0x2400dcff1d002400dcff11002400d3ff100024000000fd0010000000fb0010004b00f60010000000ec001000dcffeb0010000dffea0010000000e90010000000;
0x3b00240090ff3a0024007dff3900240000003800240061ff37002400000036002400dcff34002400dcff32002400dcff2a002400dcff2600240039002400;
0x5a00240088ff59002400000058002400dcff57002400dcff54002400dcff52002400b7ff49002400dcff48002400dcff47002400dcff4600240061ff3c002400;
0x2400dcff73002400dcff72002400dcff71002400dcff70002400dcff6f002400000068002400dcff67002400dcff6400240039006200240075ff5c002400adff;
0xaa002400b7ffa900240000008100240000008000240000007f00240000007e002400dcff7d002400dcff7c002400dcff7b002400dcff7a002400dcff7900;
0xd00024003900c90024003900c70024002f00c500240061ffbb00240075ffba00240003ffb5002400f8feb4002400dcffaf0024003900ae0024003900ad002400;
0x24000000f9002400dcfff600240075ffeb00240061ffea0024000000e30024000000d50024000000d40024000000d3002400dcffd2002400dcffd1002400dcff;
0xb7ff3a002500c1ff39002500dcff36002500dcff32002500dcff2a002500dcff26002500000010002500dcfffe002400dcfffd002400dcfffc002400dcfffb00;
0xd0002500adffc500250090ffbb00250090ffb500250090ffb4002500dcffaf002500dcffaa002500c1ffa9002500dcff67002500dcff6400250090ff3c002500;
0x2600000024002600000010002600dcfffd002500dcfffb002500dcfff9002500dcfff600250090ffea002500dcffe3002500dcffd2002500dcffd1002500dcff;
0xc5002600dcffbb0026002600b50026000000b40026000000ae0026000000ad002600dcffaa002600dcffa9002600000062002600dcff3c00260000003600;
0x6200270090ff3c00270000003a002700dcff39002700dcff240027000000100027000000f9002600dcffea0026000000e30026000000c90026000000c7002600;
0x2700dcffc9002700dcffc700270044ffc500270090ffbb002700c9ffb5002700d3ffb4002700dcffae002700dcffad002700dcffaa002700dcffa9002700dcff;
0xb7ff520029006bff4c00290090ff4800290044ff44002900dcff37002900dcff3600290044ff2400290061ff1d002900b7fe1100290000001000290090ffea00;
0x7000290044ff6e00290044ff6d00290044ff6c00290044ff6b00290044ff6a00290044ff6900290044ff6200290044ff5c00290090ff580029006bff55002900;
0x290090ff7f00290090ff7e002900b7ff7d002900b7ff7c002900b7ff7b002900b7ff7a002900b7ff7900290090ff7300290090ff7200290090ff7100290090ff;
0x44ffc700290088fec500290044ffba0029000000b5002900d3ffb400290044ffae00290044ffad0029000000aa0029000000a900290090ff8100290090ff8000;
0xa9002a00000062002a009aff3c002a0000003a002a00b7ff37002a00000024002a00000010002a00dcfff900290044ffeb002900dcffe300290044ffc9002900;
0x2b009affea002a000000c9002a000000c7002a00c9ffc5002a009affbb002a00d3ffb5002a00d3ffb4002a000000ae002a000000ad002a00dcffaa002a00dcff;
0xdcff62002d00dcff24002d00b7ff10002d00b7ffc5002b00c1ffb5002b00b7ffb4002b000000aa002b000000a9002b0000001d002b00dcff11002b0000001000;
0x24002e0029ff10002e00dcffc9002d00dcffc7002d0090ffc5002d00c1ffb5002d00b7ffb4002d00dcffae002d00dcffad002d00dcffaa002d00dcffa9002d00;
0x2e009aff58002e009aff52002e009aff48002e00dcff44002e00b7ff3c002e00b7ff3a002e00c9ff38002e0061ff37002e0090ff32002e0090ff26002e00dcff;
0xdcff6e002e00dcff6d002e00dcff6c002e00dcff6b002e00dcff6a002e00dcff69002e00c9ff68002e0090ff67002e0090ff64002e00dcff62002e006bff5c00;
0x7f002e009aff7e002e009aff7d002e009aff7c002e009aff7b002e009aff7a002e009aff79002e009aff73002e009aff72002e009aff71002e009aff70002e00;
0x2e006bffba002e00c1ffb5002e00c1ffb4002e0090ffaf002e00dcffae002e00dcffad002e000000aa002e007dffa9002e009aff81002e009aff80002e009aff;
0xb7ffea002e00c9ffd5002e00c9ffd4002e00c9ffd3002e0090ffd2002e0090ffd1002e0090ffd0002e00dcffc9002e00dcffc7002e000000c5002e00b7ffbb00;
0x3c002f0044ff3a002f001fff39002f009aff38002f00e6fe37002f00b7ff32002f002f0024002f00dcff10002f0090fffd002e0090fffb002e006bffeb002e00;
0x2f0000006a002f00000069002f009aff68002f00b7ff67002f002f0062002f0044ff5c002f00dcff58002f00dcff52002f00dcff48002f00000044002f00f0fe;
0xdcff7b002f00dcff7a002f00dcff79002f00dcff73002f00dcff72002f00dcff71002f00dcff70002f0000006e002f0000006d002f0000006c002f0000006b00;
0xaf002f002f00ae002f002f00ad002f000000aa002f000000a9002f00dcff81002f00dcff80002f00dcff7f002f00dcff7e002f00dcff7d002f00dcff7c002f00;
0x2f00b7ffd2002f00b7ffd1002f00b7ffd0002f002f00c9002f002f00c7002f000000c5002f00f0febb002f0044ffba002f00e6fdb5002f0061feb4002f00b7ff;
0x7dff3b003200dcff39003200dcff24003200dcff1d003200adff1100320039001000320044ffeb002f00f0feea002f009affd5002f009affd4002f009affd300;
0xc700320044ffc500320090ffbb003200dcffb5003200d3ffb4003200dcffae003200dcffad0032000000aa003200dcffa9003200dcff6200320090ff3c003200;
0x3300a4ff44003300d3ff3c00330000003a0033000000380033007dff2400330000001d003300c1fe11003300d3ff1000330090ffea003200dcffc9003200dcff;
0xa4ff690033000000680033007dff6200330000005c003300dcff58003300dcff56003300dcff55003300b7ff52003300dcff51003300d3ff4c003300b7ff4800;
0x79003300dcff78003300b7ff73003300b7ff72003300b7ff71003300b7ff70003300a4ff6e003300a4ff6d003300a4ff6c003300a4ff6b003300a4ff6a003300;
0x33000000aa003300dcffa9003300dcff81003300dcff80003300dcff7f003300dcff7e003300b7ff7d003300b7ff7c003300b7ff7b003300b7ff7a003300b7ff;
0xd40033000000d30033007dffc90033007dffc7003300b7fec5003300d3ffbb0033000000ba0033002600b50033002600b40033007dffae0033007dffad00;
0xc5003400dcffb5003400d3ffb40034000000aa0034000000a9003400390010003400dcfffa0033000000eb003300d3ffea003300dcffe40033000000d5003300;
0x3500d3ff440035007dff3c003500adff3a00350090ff390035006bff370035009aff26003500adff24003500c1ff1d003500b7ff11003500adff100035007dff;
0xd3ff6d003500d3ff6c003500d3ff6b003500d3ff6a003500d3ff690035009aff64003500adff6200350090ff5c003500a4ff58003500a4ff52003500a4ff4800;
0x7e003500a4ff7d003500a4ff7c003500a4ff7b003500a4ff7a003500a4ff79003500a4ff73003500a4ff72003500a4ff71003500a4ff70003500d3ff6e003500;
0x350090ffba0035007dffb50035006bffb4003500adffae003500adffad003500dcffaa00350090ffa9003500a4ff81003500a4ff80003500a4ff7f003500a4ff;
0x2a0036000000260036002600240036009afffd0035009afffb00350090ffeb0035007dffea003500adffc9003500adffc7003500dcffc50035007dffbb00;
0xc90036002600c70036000000af0036002600ae0036002600ad003600000067003600000064003600260062003600000036003600000034003600000032003600;
0x37000dff1100370044ff100037000000fd0036000000fb0036000000f90036000000f60036000000e30036000000d20036000000d10036000000d00036002600;
0xadfe56003700d3fe55003700a4fe52003700c1ff4c003700a4fe48003700a4fe46003700adfe44003700dcff3700370088ff2600370061ff240037001fff1d00;
0x6e003700adfe6d003700adfe6c003700adfe6b003700adfe6a003700adfe6900370088ff6400370061ff62003700c1fe5c003700adfe5a003700c9fe58003700;
0x3700a4fe7d003700a4fe7c003700a4fe7b003700a4fe7a003700a4fe79003700a4fe73003700a4fe72003700a4fe71003700a4fe70003700a4fe6f003700adfe;
0xc1feba003700d3ffb50037000000b400370061ffae00370061ffad00370090ffaa00370044ffa9003700c9fe81003700c9fe80003700c9fe7f003700c9fe7e00;
0x24003800a4fefe00370088fffd003700a4fefc00370088fffb003700adfefa003700c1feeb003700adfee400370061ffc900370061ffc7003700f8fec5003700;
0x3900f8fe1100390088ff10003900dcffe50038000000c90038000000c70038000000ae0038000000ad003800000062003800dcff3d00380000002d0038000000;
0xdcff670039007dff62003900c9ff5c00390075ff5800390061ff52003900d3ff4c00390061ff4800390061ff44003900dcff320039007dff2400390059ff1d00;
0x7900390061ff7300390061ff7200390061ff7100390061ff7000390061ff6e00390061ff6d00390061ff6c00390061ff6b00390061ff6a00390061ff69003900;
0x390090ffaa0039004effa900390075ff8100390075ff8000390075ff7f00390075ff7e00390061ff7d00390061ff7c00390061ff7b00390061ff7a00390061ff;
0xdcffd1003900dcffd00039007dffc90039007dffc7003900e6fec5003900c9ffba0039000000b50039000000b4003900dcffaf0039007dffae0039007dffad00;
0x55003a0088ff52003a00d3ff4c003a0088ff48003a007dff44003a0090ff24003a0088ff1d003a0015ff11003a00adff10003a00c9ffeb003900dcffd2003900;
0x3a0088ff70003a007dff6e003a007dff6d003a007dff6c003a007dff6b003a007dff6a003a007dff69003a0090ff62003a00dcff5c003a00b7ff58003a00a4ff;
0xb7ff80003a00b7ff7f003a00b7ff7e003a0088ff7d003a0088ff7c003a0088ff7b003a0088ff7a003a0088ff79003a0088ff73003a0088ff72003a0088ff7100;
0xc9003a0090ffc7003a00f8fec5003a00dcffba003a000000b5003a00dcffb4003a0090ffae003a0090ffad003a00dcffaa003a0090ffa9003a00b7ff81003a00;
0x3b007dff67003b006bff64003b00000062003b00a4ff48003b00dcff37003b007dff32003b006bff26003b00000024003b009aff10003b00dcffeb003a0090ff;
0xadffb5003b0061ffb4003b007dffaf003b000000ae003b000000ad003b000000aa003b0090ffa9003b00a4ff73003b00a4ff72003b00a4ff71003b00a4ff7000;
0x1d003c0061fe11003c000dff10003c006bfffd003b006bfffb003b007dffd2003b007dffd1003b007dffd0003b000000c9003b000000c7003b00d3ffc5003b00;
0x3c0090ff64003c0061ff62003c0015ff58003c00f0fe52003c00b7ff4c003c00f0fe48003c00e6fe44003c0090ff32003c0090ff26003c0061ff24003c00f0fe;
0xf0fe73003c00f0fe72003c00f0fe71003c00f0fe70003c00e6fe6e003c00e6fe6d003c00e6fe6c003c00e6fe6b003c00e6fe6a003c00e6fe69003c0090ff6700;
0xaa003c001fffa9003c0015ff81003c0015ff80003c0015ff7f003c0015ff7e003c00f0fe7d003c00f0fe7c003c00f0fe7b003c00f0fe7a003c00f0fe79003c00;
0x3c0090ffd1003c0090ffd0003c0061ffc9003c0061ffc7003c00f8fec5003c00dcffb5003c0090ffb4003c0090ffaf003c0061ffae003c0061ffad003c006bff;
0x90ff10004900dcff5b004800dcffc5003d00dcffb5003d00dcffb4003d000000aa003d000000a9003d00dcff10003d0090fffd003c0090fffb003c0090ffd200;
0xc5004900dcffba0049000000b50049004100b4004900dcffaa004900b7ffa9004900dcff5c004900dcff5a004900dcff57004900b7ff1d0049006bff11004900;
0x4e00dcff6c004e00dcff6b004e00dcff6a004e00dcff69004e00b7ff5c004e00c1ff58004e00b7ff52004e00b7ff48004e00dcff44004e00dcffeb00490015ff;
0xb7ff7d004e00b7ff7c004e00b7ff7b004e00b7ff7a004e00b7ff79004e00b7ff73004e00b7ff72004e00b7ff71004e00b7ff70004e00dcff6e004e00dcff6d00;
0xaa0051000000a900510000001d005100000011005100000010005100b7ffeb004e00b7ffba004e00c1ff81004e00c1ff80004e00c1ff7f004e00c1ff7e004e00;
0x52006bffb40052000000aa0052000000a9005200c1ff5b00520000001d005200dcff11005200260010005200a4ffc500510090ffb50051006bffb40051000000;
0xdcff4b005500dcff4a005500000049005500d3ff48005500dcff47005500d3ff46005500dcff1d00550044ff110055007dff100055007dffc5005200b7ffb500;
0x5d00550000005c005500c9ff5b00550000005a005500000059005500000058005500dcff55005500dcff54005500d3ff52005500dcff51005500dcff50005500;
0x5500d3ff7c005500d3ff7b005500d3ff7a005500d3ff79005500dcff78005500d3ff73005500d3ff72005500d3ff71005500d3ff70005500d3ff6f0055000000;
0xc9fec50055000000ba0055005600b50055000000b40055000000aa005500b7ffa900550000008100550000008000550000007f00550000007e005500d3ff7d00;
0xb4005900dcffaa005900dcffa900590090ff1d00590061ff11005900c9ff10005900d3fffe005500d3fffc005500dcfff70055000000eb0055000000e6005500;
0x5b0029ffc5005a000000b5005a000000b4005a00dcffaa005a00dcffa9005a0090ff1d005a0044ff11005a00000010005a00f0fec5005900dcffb50059000000;
0xc1ff7b005b00c1ff7a005b00c1ff79005b00c1ff73005b00c1ff72005b00c1ff71005b00c1ff70005b00dcff6f005b00c1ff52005b00c1ff48005b00dcff4600;
0xb5005c000000b4005c00dcffaa005c00dcffa9005c006bff1d005c00dcfe11005c00dcff10005c00dcfffe005b00dcfffc005b00c1ff7d005b00c1ff7c005b00;
0x6200000036006200dcff34006200dcff32006200dcff2a006200dcff26006200390024006200dcff1d006200dcff11006200d3ff10006200d3fec5005c000000;
0xdcff52006200b7ff49006200dcff48006200dcff47006200dcff4600620061ff3c00620000003b00620090ff3a0062007dff3900620000003800620061ff3700;
0x6f006200000068006200dcff67006200dcff6400620039006200620075ff5c006200adff5a00620088ff59006200000058006200dcff57006200dcff54006200;
0x620000007e006200dcff7d006200dcff7c006200dcff7b006200dcff7a006200dcff79006200dcff73006200dcff72006200dcff71006200dcff70006200dcff;
0x75ffba00620003ffb5006200f8feb4006200dcffaf0062003900ae0062003900ad0062000000aa006200b7ffa900620000008100620000008000620000007f00;
0xe30062000000d50062000000d40062000000d3006200dcffd2006200dcffd1006200dcffd00062003900c90062003900c70062002f00c500620061ffbb006200;
0x6400000024006400000010006400dcfffe006200dcfffd006200dcfffc006200dcfffb0062000000f9006200dcfff600620075ffeb00620061ffea0062000000;
0xc5006400dcffbb0064002600b50064000000b40064000000ae0064000000ad006400dcffaa006400dcffa9006400000062006400dcff3c00640000003600;
0x3b006700dcff39006700dcff24006700dcff1d006700adff110067003900100067000000f9006400dcffea0064000000e30064000000c90064000000c7006400;
0x670044ffc500670090ffbb006700dcffb5006700d3ffb4006700dcffae006700dcffad0067000000aa006700dcffa9006700dcff6200670090ff3c0067007dff;
0xc90068000000c70068000000ae0068000000ad006800000062006800dcff3d00680000002d00680000002400680090ffea006700dcffc9006700dcffc700;
0xb40078000000aa0078000000a900780000001d007800000011007800000010007800dcff5b007300dcff5b007200dcff5b007100dcff5b007000dcffe5006800;
0x7900b7ffb50079006bffb40079000000aa0079000000a9007900c1ff5b00790000001d007900dcff11007900260010007900a4ffc500780090ffb50078006bff;
0x260010007b007dffc5007a00b7ffb5007a006bffb4007a000000aa007a000000a9007a00c1ff5b007a0000001d007a00dcff11007a00260010007a007dffc500;
0x1d007c00dcff11007c00260010007c007dffc5007b00b7ffb5007b006bffb4007b000000aa007b000000a9007b00c1ff5b007b0000001d007b00dcff11007b00;
0x7d00c1ff5b007d0000001d007d00dcff11007d00260010007d007dffc5007c00b7ffb5007c006bffb4007c000000aa007c000000a9007c00c1ff5b007c000000;
0xadffc500890090ffb500890090ffb40089000000aa0089000000a90089002600100089007dffc5007d00b7ffb5007d006bffb4007d000000aa007d000000a900;
0x2900a900dcff2700a900dcff2600a900dcff2500a90000002400a90090ffc5009000a4ffb5009000adffb40090000000aa0090000000a9009000000010009000;
0xa90090ff3700a90000003500a90000003400a90000003300a90000003200a90000002f00a90000002e00a900dcff2d00a90000002b00a900dcff2a00a9000000;
0xdcff5a00a900dcff5900a90000005500a90000005200a90000005100a90000004900a90000003d00a9006bff3c00a90000003b00a900dcff3a00a90090ff3900;
0x8900a90000007d00a90000007c00a90000007b00a90000007a00a90000007900a90000007800a90000006700a900dcff6400a90000006200a900dcff5c00a900;
0xa9000000d100a9000000d000a9000000c900a9000000c700a9006bffbb00a900dcffba00a9000000af00a9000000ae00a9000000ad00a90097009000a9000000;
0xb7ff2500aa00b7ff2400aa00dcfffd00a900dcfffb00a900dcfff600a9000000ec00a900dcffeb00a9006bffea00a9000000e900a9000000e500a9000000d200;
0x3400aa0000003300aa00dcff3200aa0000002f00aa0000002e00aa00dcff2d00aa0000002b00aa0000002a00aa0000002900aa00dcff2700aa00dcff2600aa00;
0xaa0000005200aa0000005100aa0000004900aa0000003d00aa001fff3c00aa0090ff3b00aa0090ff3a00aa004eff3900aa0044ff3700aa0000003500aa000000;
0x7b00aa0000007a00aa0000007900aa0000007800aa00dcff6700aa00dcff6400aa00b7ff6200aa00dcff5c00aa00dcff5a00aa00dcff5900aa0000005500;
0xc900aa00b7ffc700aa001fffbb00aa00dcffba00aa00dcffaf00aa00b7ffae00aa00b7ffad00aa0000009000aa0000008900aa0000007d00aa0000007c00aa00;
0xaa00dcfffb00aa000000f600aa000000ec00aa00dcffeb00aa001fffea00aa000000e900aa000000e500aa00dcffd200aa00dcffd100aa00dcffd000aa00b7ff;
0x61ff3700ad0000003600ad00dcff3400ad00dcff3200ad00dcff2a00ad00dcff2600ad0039002400ad00dcff1d00ad00dcff1100ad00d3ff1000ad00dcfffd00;
0x5400ad00dcff5200ad00b7ff4900ad00dcff4800ad00dcff4700ad00dcff4600ad0061ff3c00ad0000003b00ad0090ff3a00ad007dff3900ad0000003800ad00;
0xad00dcff6f00ad0000006800ad00dcff6700ad00dcff6400ad0039006200ad0075ff5c00ad00adff5a00ad0088ff5900ad0000005800ad00dcff5700ad00dcff;
0x7f00ad0000007e00ad00dcff7d00ad00dcff7c00ad00dcff7b00ad00dcff7a00ad00dcff7900ad00dcff7300ad00dcff7200ad00dcff7100ad00dcff7000;
0xbb00ad0075ffba00ad0003ffb500ad00f8feb400ad00dcffaf00ad003900ae00ad003900ad00ad000000aa00ad00b7ffa900ad0000008100ad0000008000ad00;
0xad000000e300ad000000d500ad000000d400ad000000d300ad00dcffd200ad00dcffd100ad00dcffd000ad003900c900ad003900c700ad002f00c500ad0061ff;
0xdcff1d00ae00dcff1100ae00d3ff1000ae00dcfffe00ad00dcfffd00ad00dcfffc00ad00dcfffb00ad000000f900ad00dcfff600ad0075ffeb00ad0061ffea00;
0x3b00ae0090ff3a00ae007dff3900ae0000003800ae0061ff3700ae0000003600ae00dcff3400ae00dcff3200ae00dcff2a00ae00dcff2600ae0039002400ae00;
0xae0088ff5900ae0000005800ae00dcff5700ae00dcff5400ae00dcff5200ae00b7ff4900ae00dcff4800ae00dcff4700ae00dcff4600ae0061ff3c00ae000000;
0xdcff7300ae00dcff7200ae00dcff7100ae00dcff7000ae00dcff6f00ae0000006800ae00dcff6700ae00dcff6400ae0039006200ae0075ff5c00ae00adff5a00;
0xaa00ae00b7ffa900ae0000008100ae0000008000ae0000007f00ae0000007e00ae00dcff7d00ae00dcff7c00ae00dcff7b00ae00dcff7a00ae00dcff7900ae00;
0xae003900c900ae003900c700ae002f00c500ae0061ffbb00ae0075ffba00ae0003ffb500ae00f8feb400ae00dcffaf00ae003900ae00ae003900ad00ae000000;
0xf900ae00dcfff600ae0075ffeb00ae0061ffea00ae000000e300ae000000d500ae000000d400ae000000d300ae00dcffd200ae00dcffd100ae00dcffd000;
0x3c00af007dff3b00af00dcff3900af00dcff2400af00dcff1d00af00adff1100af0039001000af00dcfffe00ae00dcfffd00ae00dcfffc00ae00dcfffb00ae00;
0xaf00dcffc700af0044ffc500af0090ffbb00af00dcffb500af00d3ffb400af00dcffae00af00dcffad00af000000aa00af00dcffa900af00dcff6200af0090ff;
0xc1ff2e00b400c1ff2d00b400c1ff2b00b400b7ff2a00b400c1ff2900b400c1ff2700b400b7ff2600b400c1ff2500b400f8fe2400b40090ffea00af00dcffc900;
0x3d00b40000003c00b40088ff3b00b40000003a00b40000003900b40000003700b400c1ff3500b400b7ff3400b400c1ff3300b400b7ff3200b400c1ff2f00b400;
0xb400b7ff6700b400b7ff6400b400f8fe6200b400b7ff5c00b400b7ff5a00b400b7ff5900b40090ff5500b4006bff5200b40090ff5100b400b7ff4900b400dcff;
0xb7ffaf00b400f8feae00b400f8fead00b4007dfe9000b400c1ff8900b4006bff7d00b4006bff7c00b4006bff7b00b4006bff7a00b4006bff7900b40090ff7800;
0xeb00b4000000ea00b400b7ffe900b400dcffe500b400b7ffd200b400b7ffd100b400b7ffd000b400f8fec900b400f8fec700b4000000bb00b400b7ffba00b400;
0xba000000b400ba00dcffaa00ba00dcffa900ba006bff1d00ba00dcfe1100ba00dcff1000ba00b7fffd00b400b7fffb00b400b7fff600b400c1ffec00b400b7ff;
0xb7ff4c00bb00f0fe4800bb00e6fe4400bb0090ff3200bb0090ff2600bb0061ff2400bb00f0fe1d00bb0061fe1100bb000dff1000bb00d3fec500ba000000b500;
0x6e00bb00e6fe6d00bb00e6fe6c00bb00e6fe6b00bb00e6fe6a00bb00e6fe6900bb0090ff6700bb0090ff6400bb0061ff6200bb0015ff5800bb00f0fe5200bb00;
0xbb0015ff7e00bb00f0fe7d00bb00f0fe7c00bb00f0fe7b00bb00f0fe7a00bb00f0fe7900bb00f0fe7300bb00f0fe7200bb00f0fe7100bb00f0fe7000bb00e6fe;
0xf8fec500bb00dcffb500bb0090ffb400bb0090ffaf00bb0061ffae00bb0061ffad00bb006bffaa00bb001fffa900bb0015ff8100bb0015ff8000bb0015ff7f00;
0x2700c50090ff2600c500b7ff2500c50026002400c50090fffd00bb0090fffb00bb0090ffd200bb0090ffd100bb0090ffd000bb0061ffc900bb0061ffc700bb00;
0xc500b7ff3500c50090ff3400c500b7ff3300c50090ff3200c500b7ff2f00c500b7ff2e00c5002f002d00c500b7ff2b00c500b7ff2a00c500b7ff2900c500b7ff;
0x15ff5900c500b7ff5500c500b7ff5200c500b7ff5100c500dcff4900c50000003d00c50088fe3c00c500b7ff3b00c50003ff3a00c50088fe3900c500e6fe3700;
0x7d00c500b7ff7c00c500b7ff7b00c500b7ff7a00c500b7ff7900c500b7ff7800c50090ff6700c50090ff6400c50026006200c50090ff5c00c5003cff5a00c500;
0xc50090ffd000c5002600c900c5002600c700c50088febb00c50090ffba00c50090ffaf00c5002600ae00c5002600ad00c50026009000c500b7ff8900c500b7ff;
0xd3ff1000c70090fffd00c50090fffb00c500b7fff600c500b7ffec00c50090ffeb00c50088feea00c500b7ffe900c5000000e500c50090ffd200c50090ffd100;
0x3900c70000003800c70061ff3700c70000003600c700dcff3400c700dcff3200c700dcff2a00c700dcff2600c70039002400c700dcff1d00c700dcff1100c700;
0xc700dcff5700c700dcff5400c700dcff5200c700b7ff4900c700dcff4800c700dcff4700c700dcff4600c70061ff3c00c70000003b00c70090ff3a00c7007dff;
0xdcff7100c700dcff7000c700dcff6f00c70000006800c700dcff6700c700dcff6400c70039006200c70075ff5c00c700adff5a00c70088ff5900c70000005800;
0x8100c70000008000c70000007f00c70000007e00c700dcff7d00c700dcff7c00c700dcff7b00c700dcff7a00c700dcff7900c700dcff7300c700dcff7200c700;
0xc7002f00c500c70061ffbb00c70075ffba00c70003ffb500c700f8feb400c700dcffaf00c7003900ae00c7003900ad00c7000000aa00c700b7ffa900c7000000;
0x75ffeb00c70061ffea00c7000000e300c7000000d500c7000000d400c7000000d300c700dcffd200c700dcffd100c700dcffd000c7003900c900c7003900c700;
0x2600c90039002400c900dcff1d00c900dcff1100c900d3ff1000c900dcfffe00c700dcfffd00c700dcfffc00c700dcfffb00c7000000f900c700dcfff600c700;
0xc90061ff3c00c90000003b00c90090ff3a00c9007dff3900c90000003800c90061ff3700c90000003600c900dcff3400c900dcff3200c900dcff2a00c900dcff;
0x75ff5c00c900adff5a00c90088ff5900c90000005800c900dcff5700c900dcff5400c900dcff5200c900b7ff4900c900dcff4800c900dcff4700c900dcff4600;
0x7a00c900dcff7900c900dcff7300c900dcff7200c900dcff7100c900dcff7000c900dcff6f00c90000006800c900dcff6700c900dcff6400c90039006200c900;
0xc9003900ad00c9000000aa00c900b7ffa900c90000008100c90000008000c90000007f00c90000007e00c900dcff7d00c900dcff7c00c900dcff7b00c900dcff;
0xdcffd100c900dcffd000c9003900c900c9003900c700c9002f00c500c90061ffbb00c90075ffba00c90003ffb500c900f8feb400c900dcffaf00c9003900ae00;
0xfc00c900dcfffb00c9000000f900c900dcfff600c90075ffeb00c90061ffea00c9000000e300c9000000d500c9000000d400c9000000d300c900dcffd200c900;
0xd000dcff6200d00090ff3c00d0007dff3b00d000dcff3900d000dcff2400d000dcff1d00d000adff1100d00039001000d000dcfffe00c900dcfffd00c900dcff;
0x90ffea00d000dcffc900d000dcffc700d00044ffc500d00090ffbb00d000dcffb500d000d3ffb400d000dcffae00d000dcffad00d0000000aa00d000dcffa900;
0xad00d1000000aa00d100dcffa900d100dcff6200d10090ff3c00d1007dff3b00d100dcff3900d100dcff2400d100dcff1d00d100adff1100d10039001000d100;
0xd200adff1100d20039001000d20090ffea00d100dcffc900d100dcffc700d10044ffc500d10090ffbb00d100dcffb500d100d3ffb400d100dcffae00d100dcff;
0xd3ffb400d200dcffae00d200dcffad00d2000000aa00d200dcffa900d200dcff6200d20090ff3c00d2007dff3b00d200dcff3900d200dcff2400d200dcff1d00;
0xad00d30000006200d300dcff3d00d30000002d00d30000002400d30090ffea00d200dcffc900d200dcffc700d20044ffc500d20090ffbb00d200dcffb500d200;
0xd4000000ae00d4000000ad00d40000006200d400dcff3d00d40000002d00d40000002400d400dcffe500d3000000c900d3000000c700d3000000ae00d3000000;
0xc900d5000000c700d5000000ae00d5000000ad00d50000006200d500dcff3d00d50000002d00d50000002400d500dcffe500d4000000c900d4000000c700;
0xad00e30000006700e30000006400e30026006200e30000003600e30000003400e30000003200e30000002a00e30000002600e30026002400e300dcffe500d500;
0xe3000000f900e3000000f600e3000000e300e3000000d200e3000000d100e3000000d000e3002600c900e3002600c700e3000000af00e3002600ae00e3002600;
0xaa00e9000000a900e90000001000e900dcffc500e500dcffb500e500dcffb400e5000000aa00e5000000a900e500dcff1000e5000000fd00e3000000fb00;
0x4800ea00e6fe4400ea0090ff3200ea0090ff2600ea0061ff2400ea00f0fe1d00ea0061fe1100ea000dff1000ea00b7ffc500e90090ffb500e900a4ffb400e900;
0xea00e6fe6c00ea00e6fe6b00ea00e6fe6a00ea00e6fe6900ea0090ff6700ea0090ff6400ea0061ff6200ea0015ff5800ea00f0fe5200ea00b7ff4c00ea00f0fe;
0xf0fe7d00ea00f0fe7c00ea00f0fe7b00ea00f0fe7a00ea00f0fe7900ea00f0fe7300ea00f0fe7200ea00f0fe7100ea00f0fe7000ea00e6fe6e00ea00e6fe6d00;
0xb500ea0090ffb400ea0090ffaf00ea0061ffae00ea0061ffad00ea006bffaa00ea001fffa900ea0015ff8100ea0015ff8000ea0015ff7f00ea0015ff7e00ea00;
0xeb00dcfe1100eb00dcff1000eb0090fffd00ea0090fffb00ea0090ffd200ea0090ffd100ea0090ffd000ea0061ffc900ea0061ffc700ea00f8fec500ea00dcff;
0xaa00ec000000a900ec00b7ff1d00ec006bff1100ec0000001000ec00d3fec500eb000000b500eb000000b400eb00dcffaa00eb00dcffa900eb006bff1d00;
0xaa00f600dcffa900f60000006200f6009aff3c00f60000003a00f600b7ff3700f60000002400f60000001000f60044ffc500ec000000b500ec00dcffb400ec00;
0xf90026002400f9009affea00f6000000c900f6000000c700f600c9ffc500f6009affbb00f600d3ffb500f600d3ffb400f6000000ae00f6000000ad00f600dcff;
0xaf00f9002600ae00f9002600ad00f90000006700f90000006400f90026006200f90000003600f90000003400f90000003200f90000002a00f90000002600;
0x1000fb000000fd00f9000000fb00f9000000f900f9000000f600f9000000e300f9000000d200f9000000d100f9000000d000f9002600c900f9002600c700f900;
0xfb002600b500fb000000b400fb000000ae00fb000000ad00fb00dcffaa00fb00dcffa900fb0000006200fb00dcff3c00fb0000003600fb0000002400fb000000;
0xdcff3c00fd0000003600fd0000002400fd0000001000fd000000f900fb00dcffea00fb000000e300fb000000c900fb000000c700fb000000c500fb00dcffbb00;
0xc900fd000000c700fd000000c500fd00dcffbb00fd002600b500fd000000b400fd000000ae00fd000000ad00fd00dcffaa00fd00dcffa900fd0000006200fd00;
0x1dfe6d07000001000100030068051504000007004000100002000400420007004d000c010000010000000000f900fd00dcffea00fd000000e300fd000000;
0x80303060b02020866028f0053020000cc04470542fe0000cc0447050400050090010e0401000c01000000000000000000000000000001004c0a89fe89febc0a;
0x60048b02b11d00420000010000000000000001000000e3016d079a0114fe140602fb200040007374694200000000000000004a200010af00008004020204;
0x402080906080403030300050c091001000014000000000000400000303052383236feffff36ffffffff0000000000000000736e6153617265560000d5056323;
0x60603060606060605050804030405050607060705070607060707080506030307070606070707060a0508080803030606060606060606060603030303080504;
0x9090606050506060505060606060606060606060303030306060606060606060606060707070607060608050305060505070506040504060606060903050303;
0x6060606060c0503030506060404060205050408030305050905090a070606060906060608060608030506090704040505070605060608080808070908050509;
0x5050405050505050506030306060706070507030607090909040404080806060505060703060505070305050505050505050505050307070707070703030303;
0x609070805070708070808090607030308080607080807070b05080808030306060606060606060606030304030805040403090a06080504030300060d0a0000;
0x60606060202020206060606050606060606060808080708070708060306050606080606040504060606060a0205020206060406060506060505080403040607;
0x7060508030305050a050a0b080707060a060607080606080405060a0805050506080705070608080808080a0805050a0a0a0606060506060505060606060606;
0x805070306080a0a0a04040408080607060706080305060507020605050505050505050505020808080808080303030307070707070d05030305060604040602;
0x8090607080808070c060909090404070707070707070707070404040409060404030a0a07090503030300070f0b000005050405050505050506030406050805;
0x707070809080708070709070407050606090607040705070707070b030603030707040707060707060609040404090707090708070807090709080906070303;
0xb070707090707090306070b0805050606080706070709090909090b0906060b0b0b070706060707060607070707070707070707030303030707070706070707;
0x60707080405090708030606060606060606060606030808080909090303030307070707070f0604040607070404070207060509040406060b060b0c09070707;
0x80808080808080808040404040a060505030a0b080a050504040007100c0000060604060606060606070404070608060807080307090b0b0b04040409090707;
0x6090608050705080808080b03070303080804080807080806060a0504050907090b0809070808090809090a0607030309090708090808080d060a0a0a040408;
0x709080608080a0a0a0a090c0a06060c0c0c080807060808060608080808080808080808030303030808080807080808080808090909080808080a0804080506;
0x6060606060309090909090903030303080808080810060404060707050508020706060a040406060c060d0d090808080c0707080a08080a0506080c09060606;
0x5030b0c080b050504040008110d0000060605060606060606080404080708070807080308090c0c0c0505050a0a080806070809040509070803060606060606;
0x80804080807080807070b0504050a070a0b090a0709080a080a0a0b070803030a0a07080a0909090d070b0b0b040408080808080808080808040405040b0705;
0xd0d0808080708080707080808080808080808080303030308080808070808080808080a0a0a080909090b080408070707090708050705080808080d03070303;
0x80809080911070404070808050508020707060b040407070d070d0e0a0909080d0808090b08080b0507080d0a060607080a090708080b0b0b0b0a0d0b07070d;
0x707050707070707070804050807090709070903080a0d0d0d0505050b0b08080707080a04070a0709030707070707070707070707030a0a0a0a0a0a03030303;
0xb0d090a09090a0b090b0a0c070903030a0b08090b0a0a090e070c0c0c050509090909090909090909050405040c070505030c0d090c050504040008130e0000;
0x90909090303030309090909080808080808080a0b0a090a09090c0905090807070b0709050805090909090d03080303090904090908090807070c0505050a09;
0x907070c040407070e070f0f0b0909090e0909090c09090c0507090e0b070707080b090709090c0c0c0c0b0e0c07070e0e0e0909080709090707090909090909;
0xa080903090b0e0e0e0606060c0c09090709090b05080a0809030707070707070707070707030a0a0a0b0b0b0303030309090909091307040407080806060902;
0xb0c09090b0a0a0a0f080d0d0d05050a0a0a0a0a0a0a0a0a0a050505050d080606030b0e0a0d060605050009140f000007070607070707070709040509080a08;
0x909090b0c0b090a0a0a0d0a050a08080a0d0809060806090909090f03080303090905090908090908080d0605060b090a0f0a0b090a0a0c090c0b0d080a0303;
0xf09090a0d0a0a0d0608090f0b070708090b0a08090a0d0d0d0d0c0f0d08080f0f0f090a09080a0a080809090909090909090909030303030909090908090909;
0x809090c05080b080a030808080808080808080808030b0b0b0c0c0c0303030309090a090a1408050508090906060a030908070d050508080f080f100c0a0a0a;
0xa0a0a0a0a0a0a0a0a050506050d080606030c0f0a0d06060505000a151000000808060808080808080a050509080a080a080a03090c0f0f0f0606060d0d0909;
0xa0d090a0609070a0a0a0a0f030903030a0a06090a090a0908080d0605060c090b110b0c090a0b0d0a0d0c0d090a05050c0c090a0c0b0b0b10090d0d0d05050a;
0x90c0b080a0a0d0d0d0d0d100d08081010100a0a09080a0a08080a0a0a0a0a0a0a0a0a0a0303030309090909090909090909090c0d0c0a0b0b0b0d0a050a0909;
0x808080808030c0c0c0d0d0d050505050a0a0b0a0b15080505080a0a06060a030909080d0505080810080f110d0b0b0a100a0a0b0d0a0a0d06090a100c080808;
0x7050d100b0e08070505000a171100000808060808080808080a05060a090b090b090a050a0c1010100606060d0d0a0a09090a0d05090c090a04090808080808;
0xb0a060a0a080a0a09090e0706070c0a0d120b0d0a0b0c0d0a0d0d0f090c06060d0d0a0b0d0c0c0b11090e0e0e06060b0b0b0b0b0b0b0b0b0b060506050e0907;
0x11110b0b0a090b0b09090b0b0b0b0a0a0a0a0a0b050505050a0a0a0a080a0a0a0a0a0a0d0d0d0b0c0b0b0e0b060b080a0a0f0a0b0708070a0a0a0b11050a0505;
0xb0b0b0b0b17090505090a0a07070b030a0a080e05050909110911120d0b0b0b110a0a0b0e0b0b0e07090a100d0808090a0d0b090b0b0e0e0e0e0d100e090911;
0x909070909090909090b05060a080c080c080b060a0d1010100707070e0e0a0a0a0a0a0d06080c080b050a09090909090909090909050d0d0d0d0d0d06060606;
0xd130c0e0c0b0d0e0b0e0e100a0c06060e0e0a0b0e0d0c0c120a0f0f0f06060b0b0b0b0b0b0b0b0b0b060607060f090707040d110b0f08070606000b18120000;
0xb0b0b0b050505050b0b0b0b090a0a0a0a0a0a0e0e0e0b0d0c0c0f0b060b090b0b100b0b0708080b0b0b0b11050a05050b0b060b0b090b0a09090f0706070d0c;
0xc0b090f06060909120913130e0c0c0b120b0b0c0f0b0b0f070a0b110e0808090b0e0c090b0b0f0f0f0f0e110f09091212120b0b0b090b0b09090b0b0b0b0b0b;
0xd080b060b0e1111110707070f0f0b0b0b0c0b0e06090d080b050a09090909090909090909050e0e0e0e0e0e060606060b0b0c0b0c18090606090b0b07070b03;
0xe0f0b0c0f0d0d0d130a10101006060c0c0c0c0c0c0c0c0c0c06060706100a0707040e120c1008080606000b1a1300000909070909090909090b06070b090d09;
0xb0b0b0e0f0e0c0d0d0d100c060c0b0b0b110b0c0809080b0b0b0c11050b05050c0b060b0b090b0b0a0a100706070d0c0e140d0e0c0c0d0f0c0f0e100b0c0606;
0x130c0c0d100c0c10080a0b120f09090a0b0e0d0a0c0c101010100f12100a0a1313130c0c0b0a0c0c0a0a0c0c0c0c0b0b0b0b0b0c050505050b0b0b0b090b0b0b;
0xb0c0b0f060b0d090c050b0a0a0a0a0a0a0a0a0a0a050e0e0e0f0f0f060606060c0c0d0c0d1a0a06060a0b0b08080c030c0b091006060a0a130a13140f0d0d0c;
0xd0d0d0d0d0d0d0d0d07060706110a0808060f130d110a080606000c1b1400000a0a080a0a0a0a0a0a0c06070b090d090d090c060b0f12121208080810100b0c;
0xb110b0d080a080d0d0c0d14060c06060d0d070c0d0b0d0c0a0a110807080e0c0e140e0f0c0d0e100c100f110b0d06060f100c0d0f0e0e0e140b11111107070d;
0xc0f0d0a0d0d111111111014110a0a1414140d0d0c0a0d0d0a0a0d0d0d0d0c0c0c0c0c0d060606060c0c0c0c0b0c0c0c0c0c0c0f100f0d0e0e0e110d070d0b0b;
0xa0a0a0a0a060f0f0f101010060606060d0d0e0d0e1b0a06060a0d0d08080d030c0b0a1106060a0a140a1415100e0e0d140c0c0d110d0d11080b0c130f09090a;
0x80610140d120a080707000d1c1500000a0a080a0a0a0a0a0a0d06070d0b0e0b0e0a0d060d1013131308080811110d0c0b0c0c0f070b0e0a0d060b0a0a0a0a0a;
0xd0d070d0d0c0d0d0b0b120807080e0d0e150e0f0d0d0f110d1110120c0e060610100c0d100f0e0e150b12121207070d0d0d0d0d0d0d0d0d0d07070807120b08;
0x15150d0d0c0b0d0d0b0b0e0e0e0e0d0d0d0d0d0e060606060d0d0d0d0c0d0d0d0d0d0d0f11100d0f0e0e120d070d0b0d0d110b0e080b090d0d0d0e14060c0606;
0xd0d0e0d0e1c0b07070b0d0d08080d040d0d0a1207070b0b150b1616110e0e0d150d0d0e120d0d12080b0d14100a0a0b0c100e0b0e0d121212121114120b0b15;
0xb0b080b0b0b0b0b0b0d07080d0c0f0c0f0b0d060d1014141408080812120d0d0d0d0d10070b0e0b0d060c0b0b0b0b0b0b0b0b0b0b060f0f0f11111106060606;
0xf160f100d0e0f110d1110130c0e060611110d0e110f0f0f160c12121207070e0e0e0e0e0e0e0e0e0e07070807120b09090611150e120a090707000d1e160000;
0xd0d0d0e060606060d0d0d0d0c0d0d0d0d0d0d1011100e0f0f0f120e070e0c0e0e120e0e090b090e0e0d0e16060d06060e0e080d0e0c0e0d0b0b120907090f0d;
0xd0e0b1207070b0b160b1618110f0f0e160d0d0f120e0e12090c0d15110a0a0b0d110f0b0e0e121212121115120b0b1616160e0e0d0b0e0e0b0b0e0e0e0e0d0d;
0xf0b0e060e1115151509090912120e0d0e0d0d11070c0f0b0e060c0b0b0b0b0b0b0b0b0b0b06101010111111060606060e0e0f0e0f1e0b07070b0d0d09090e04;
0x11120d0f12101010170c13131308080f0f0f0f0f0f0f0f0f0f08070807130c09090612160f130b090707000e1f1700000b0b090b0b0b0b0b0b0e07080e0c0f0c;
0xe0e0e1112110f101010130f080f0c0e0e130e0f090c090e0e0e0f16060d06060f0f080e0f0d0f0e0c0c13090809100e101710110e0f10120e1211140d0f0707;
0x170e0e0f130f0f13090c0e15120b0b0c0e11100c0f0f131313131216130c0c1717170e0f0e0c0f0f0c0c0f0f0f0f0e0e0e0e0e0f060606060e0e0e0e0d0e0e0e;
0xe0e0e12080c100c0f060d0c0c0c0c0c0c0c0c0c0c06111111121212070707070f0f100f101f0c07070c0f0f09090f040e0e0b1307070c0c170c18191210100f;
0xf0f0f0f0f0f0f0f0f08080908140c09090713170f140b0a0808000e201800000c0c090c0c0c0c0c0c0f07080f0d100d100c0f070f1216161609090913130e0e;
0xf140f0f090c0a0f0f0e0f18060e07070f0f080e0f0d0f0e0c0c14090809100f101810120f0f11130e1312150d10070712130e0f12111010180d14141408080f;
0xe12100c0f0f141414141317140c0c1818180f0f0e0c0f0f0c0c0f0f0f0f0e0e0e0e0e0f070707070e0e0e0e0d0e0e0e0e0e0e1213120f111010140f080f0d0f;
0xc0c0c0c0c07121212131313070707070f0f100f10200c08080c0f0f0a0a0f040f0f0c1408080c0c180c181a1310100f180f0f10140f0f140a0d0e17120b0b0d;
0xa07141810150c0a0808000f221900000c0c0a0c0c0c0c0c0c0f08090f0d110d110c0f070f131717170a0a0a14140f0f0f0f0e13080d100c0f060d0c0c0c0c0c;
0x1010090f100e100f0d0d150a080a110f111911120f1011140f1413160e10070713130e1013111111190d15151508081010101010101010101008080908150d0a;
0x191910100f0d10100d0d101010100f0f0f0f0f10070707070f0f0f0f0e0f0f0f0f0f0f12141310111111151008100d0f0f140f100a0d0a10100f1018070e0707;
0x1010111011220d08080d10100a0a10040f0f0c1508080d0d190d1a1b14111110190f0f11151010150a0d0f19130c0c0d0f13110d1010151515151418150d0d19;
0xd0d0a0d0d0d0d0d0d100809100e110e110d100710131818180a0a0a1515100f0f0f0f13080d110d10070e0d0d0d0d0d0d0d0d0d0d0712121214141407070707;
0x121a121310111214101413160e11080814140f10141212121a0e16161609091111111111111111111109080908160d0a0a07141911160c0a08080010231a0000;
0x1010101007070707101010100e10101010101013141310121212161109110e0f0f150f100a0e0b1111101019070f070710110910110e11100d0d160a090a1210;
0x100f0d1608080d0d1a0d1b1c141212111a101011161111160a0e101a140c0c0e0f14120d1111161616161419160d0d1a1a1a10110f0d11110d0d101010101010;
0x120e110811141919190a0a0a161611100f101014090e120e11070f0d0d0d0d0d0d0d0d0d0d07131313141414080808081010121012230d08080d10100a0a1104;
0x14151011151313121b0e17171709091111111111111111111109090a09170e0b0b07151a11170c0b09090010241b00000d0d0a0d0d0d0d0d0d110809110e120e;
0x11111114151411131212171109110e10101610110b0e0b111111111a0810080811110a11110f11110e0e170b090b1311131b121411111315101514170f120808;
0x1b111112171111170b0e111b150d0d0e1014120e111117171716151a170e0e1b1b1b1111100e11110e0e1111111111111111111108080808111111110f111111;
0x10111115090e130e11080f0e0e0e0e0e0e0e0e0e0e08141414151515080808081111121112240e09090e11110b0b110511100d1709090e0e1b0e1c1d15121211;
0x12121212121212121209090a09170e0b0b08161b12170d0b09090011261c00000e0e0b0e0e0e0e0e0e11090a110f130f130e110811151a1a1a0b0b0b17171110;
0x111711120b0f0c121211121b0810080812120a11120f12110e0e170b090b1311131c131511121316111615181012080815161012161413131c0f171717090912;
0x1015130e121217171717161b170e0e1c1c1c1212110e12120e0e1212121211111111111208080808111111110f11111111111115161512141313171209120f11;
0xe0e0e0e0e08151515161616080808081212131213260f09090e12120b0b120511110e1709090f0f1c0e1d1e161313121c111113171212170b0f111c150d0d0f;
0x1000300ffff020008000200000000000e0e0b0e0e0e0e0e0e12090a120f140f140f120812161b1b1b0b0b0b1717121111111116090f130f1208100e0e0e0e0e;
0x6d6165727473646e650a0000000000000100080000006d074c0a1dfe89fe9167c2ba00000000b8f0b9ba0000000000081f00f53c0f5fec0a500c000002000000;
0x7265566d61657274737469422f20656d614e746e6f462f20726f7470697263736544746e6f462f20657079542f203c3c0a6a626f203020350a6a626f646e650a;
0x20746e65637365442f2038323920746e656373412f205d3832392037383231203533322d203338312d5b20786f4242746e6f462f206e616d6f522d736e615361;
0x74532f20383239207468676965487061432f2034207367616c462f203020656c676e4163696c6174492f2052203020342032656c6946746e6f462f203533322d;
0x49432f0a6d61657274730a3e3e2030363933206874676e654c2f203c3c0a6a626f203020360a6a626f646e650a3e3e20303820486d6574532f20303820566d65;
0x79534449432f0a70616d636e696765620a6e6967656220746369642032310a6e6967656220656372756f736572646e696620746553636f72502f2074696e4944;
0x64203e3e203020746e656d656c707075532f20295343552820676e69726564724f2f202965626f6441282079727473696765522f203c3c0a6f666e496d657473;
0x65646f636e6967656220310a6665642032206570795470614d432f0a666564205343552d797469746e6564492d65626f64412f20656d614e70614d432f0a6665;
0x333030303c0a7261686366626e69676562203030310a65676e6172656361707365646f63646e650a3e666666663c203e303030303c0a65676e61726563617073;
0x3e343230303c203e373030303c0a3e333230303c203e363030303c0a3e323230303c203e353030303c0a3e313230303c203e343030303c0a3e303230303c203e;
0x203e633030303c0a3e383230303c203e623030303c0a3e373230303c203e613030303c0a3e363230303c203e393030303c0a3e353230303c203e383030303c0a;
0x3c0a3e643230303c203e303130303c0a3e633230303c203e663030303c0a3e623230303c203e653030303c0a3e613230303c203e643030303c0a3e393230303c;
0x303c203e353130303c0a3e313330303c203e343130303c0a3e303330303c203e333130303c0a3e663230303c203e323130303c0a3e653230303c203e31313030;
0x30303c0a3e363330303c203e393130303c0a3e353330303c203e383130303c0a3e343330303c203e373130303c0a3e333330303c203e363130303c0a3e323330;
0x3330303c203e653130303c0a3e613330303c203e643130303c0a3e393330303c203e633130303c0a3e383330303c203e623130303c0a3e373330303c203e6131;
0x333230303c0a3e663330303c203e323230303c0a3e653330303c203e313230303c0a3e643330303c203e303230303c0a3e633330303c203e663130303c0a3e62;
0x3e343430303c203e373230303c0a3e333430303c203e363230303c0a3e323430303c203e353230303c0a3e313430303c203e343230303c0a3e303430303c203e;
0x203e633230303c0a3e383430303c203e623230303c0a3e373430303c203e613230303c0a3e363430303c203e393230303c0a3e353430303c203e383230303c0a;
0x3c0a3e643430303c203e303330303c0a3e633430303c203e663230303c0a3e623430303c203e653230303c0a3e613430303c203e643230303c0a3e393430303c;
0x303c203e353330303c0a3e313530303c203e343330303c0a3e303530303c203e333330303c0a3e663430303c203e323330303c0a3e653430303c203e31333030;
0x30303c0a3e363530303c203e393330303c0a3e353530303c203e383330303c0a3e343530303c203e373330303c0a3e333530303c203e363330303c0a3e323530;
0x3530303c203e653330303c0a3e613530303c203e643330303c0a3e393530303c203e633330303c0a3e383530303c203e623330303c0a3e373530303c203e6133;
0x333430303c0a3e663530303c203e323430303c0a3e653530303c203e313430303c0a3e643530303c203e303430303c0a3e633530303c203e663330303c0a3e62;
0x3e343630303c203e373430303c0a3e333630303c203e363430303c0a3e323630303c203e353430303c0a3e313630303c203e343430303c0a3e303630303c203e;
0x203e633430303c0a3e383630303c203e623430303c0a3e373630303c203e613430303c0a3e363630303c203e393430303c0a3e353630303c203e383430303c0a;
0x3c0a3e643630303c203e303530303c0a3e633630303c203e663430303c0a3e623630303c203e653430303c0a3e613630303c203e643430303c0a3e393630303c;
0x303c203e353530303c0a3e313730303c203e343530303c0a3e303730303c203e333530303c0a3e663630303c203e323530303c0a3e653630303c203e31353030;
0x30303c0a3e363730303c203e393530303c0a3e353730303c203e383530303c0a3e343730303c203e373530303c0a3e333730303c203e363530303c0a3e323730;
0x3730303c203e653530303c0a3e613730303c203e643530303c0a3e393730303c203e633530303c0a3e383730303c203e623530303c0a3e373730303c203e6135;
0x336130303c0a3e306130303c203e636130303c0a3e653730303c203e313630303c0a3e643730303c203e303630303c0a3e633730303c203e663530303c0a3e62;
0x3030310a726168636662646e650a3e346130303c203e646230303c0a3e336130303c203e353830303c0a3e326130303c203e343830303c0a3e316130303c203e;
0x303c203e653830303c0a3e376130303c203e363830303c0a3e366130303c203e376530303c0a3e356130303c203e363930303c0a7261686366626e6967656220;
0x31303c0a3e636130303c203e346130303c0a3e626130303c203e396130303c0a3e616130303c203e643930303c0a3e396130303c203e623830303c0a3e386130;
0x6230303c203e333930303c0a3e306230303c203e333830303c0a3e666130303c203e396430303c0a3e656130303c203e613830303c0a3e646130303c203e3030;
0x383830303c0a3e356230303c203e373930303c0a3e346230303c203e643830303c0a3e336230303c203e326630303c0a3e326230303c203e316630303c0a3e31;
0x3e616230303c203e653930303c0a3e396230303c203e306630303c0a3e386230303c203e646430303c0a3e376230303c203e336330303c0a3e366230303c203e;
0x203e326130303c0a3e656230303c203e356630303c0a3e646230303c203e346630303c0a3e636230303c203e336630303c0a3e626230303c203e616130303c0a;
0x3c0a3e336330303c203e656130303c0a3e326330303c203e376330303c0a3e316330303c203e396330303c0a3e306330303c203e646130303c0a3e666230303c;
0x303c203e626330303c0a3e376330303c203e343630303c0a3e366330303c203e303930303c0a3e356330303c203e333630303c0a3e346330303c203e32363030;
0x30303c0a3e636330303c203e666330303c0a3e626330303c203e616330303c0a3e616330303c203e386330303c0a3e396330303c203e353630303c0a3e386330;
0x6430303c203e363630303c0a3e306430303c203e386530303c0a3e666330303c203e656330303c0a3e656330303c203e646330303c0a3e646330303c203e6363;
0x373630303c0a3e356430303c203e666130303c0a3e346430303c203e316430303c0a3e336430303c203e306430303c0a3e326430303c203e326430303c0a3e31;
0x3e616430303c203e336430303c0a3e396430303c203e356430303c0a3e386430303c203e313930303c0a3e376430303c203e666530303c0a3e366430303c203e;
0x203e393830303c0a3e656430303c203e636530303c0a3e646430303c203e616530303c0a3e636430303c203e383630303c0a3e626430303c203e346430303c0a;
0x3c0a3e336530303c203e643630303c0a3e326530303c203e623630303c0a3e316530303c203e393630303c0a3e306530303c203e613630303c0a3e666430303c;
0x303c203e313730303c0a3e376530303c203e663630303c0a3e366530303c203e306130303c0a3e356530303c203e653630303c0a3e346530303c203e63363030;
0x30303c0a3e636530303c203e353730303c0a3e626530303c203e333730303c0a3e616530303c203e323730303c0a3e396530303c203e303730303c0a3e386530;
0x6630303c203e383730303c0a3e306630303c203e396530303c0a3e666530303c203e373730303c0a3e656530303c203e363730303c0a3e646530303c203e3437;
0x633730303c0a3e356630303c203e643730303c0a3e346630303c203e623730303c0a3e336630303c203e393730303c0a3e326630303c203e613730303c0a3e31;
0x3e616630303c203e653730303c0a3e396630303c203e663730303c0a3e386630303c203e316130303c0a3e376630303c203e386230303c0a3e366630303c203e;
0x203e616230303c0a3e656630303c203e646530303c0a3e646630303c203e626530303c0a3e636630303c203e313830303c0a3e626630303c203e303830303c0a;
0x3c0a3e643031303c203e656630303c0a3e633031303c203e646630303c0a3e373031303c203e636630303c0a3e363031303c203e626630303c0a3e666630303c;
0x303c203e366430303c0a3e303331303c203e386630303c0a3e663131303c203e376630303c0a3e653131303c203e366630303c0a3e313131303c203e66663030;
0x3e306230303c0a3e323431303c203e326530303c0a3e313431303c203e316530303c0a7261686366626e696765622036350a726168636662646e650a3e313331;
0xa3e303631303c203e336530303c0a3e663531303c203e616630303c0a3e653531303c203e396630303c0a3e333531303c203e316230303c0a3e323531303c20;
0x3c203e366130303c0a3e653731303c203e366530303c0a3e643731303c203e356530303c0a3e383731303c203e626230303c0a3e313631303c203e346530303c;
0x303c0a3e396432303c203e626430303c0a3e386432303c203e616430303c0a3e376332303c203e306530303c0a3e366332303c203e376430303c0a3e32393130;
0x33303c203e663930303c0a3e646432303c203e656430303c0a3e636432303c203e386430303c0a3e626432303c203e666430303c0a3e616432303c203e636430;
0x6230303c0a3e383130323c203e366230303c0a3e343130323c203e336230303c0a3e333130323c203e326230303c0a3e306333303c203e623930303c0a3e3961;
0x653130323c203e356330303c0a3e643130323c203e356230303c0a3e633130323c203e346230303c0a3e613130323c203e346330303c0a3e393130323c203e37;
0x3e366330303c0a3e363230323c203e626130303c0a3e323230323c203e373830303c0a3e313230323c203e326330303c0a3e303230323c203e323830303c0a3e;
0xa3e323231323c203e633830303c0a3e636130323c203e323031303c0a3e613330323c203e666230303c0a3e393330323c203e656230303c0a3e303330323c20;
0x3c203e656530303c0a3e313132323c203e393930303c0a3e663032323c203e613930303c0a3e363032323c203e386130303c0a3e323032323c203e383930303c;
0x303c0a3e653132323c203e323930303c0a3e613132323c203e356130303c0a3e393132323c203e313031303c0a3e353132323c203e636230303c0a3e32313232;
0x32323c203e353930303c0a3e343632323c203e343930303c0a3e303632323c203e663830303c0a3e383432323c203e376130303c0a3e623232323c203e633930;
0xa70616d63646e650a726168636662646e650a3e323062663c203e316330303c0a3e313062663c203e306330303c0a3e616335323c203e396230303c0a3e3536;
0xa6d6165727473646e650a646e650a646e650a706f7020656372756f736572656e696665642070614d432f2074636964746e657272756320656d614e70614d43;
0x657274737469422f20746e6f46657361422f2030657079542f20657079746275532f20746e6f462f20657079542f203c3c0a6a626f203020370a6a626f646e65;
0x646e65637365442f20482d797469746e6564492f20676e69646f636e452f2052203020362065646f63696e556f542f206e616d6f522d736e6153617265566d61;
0x74737469422f20746e6f46657361422f203265707954746e6f464449432f20657079746275532f20746e6f462f20657079542f203c3c5b2073746e6f46746e61;
0x676e69726564724f2f202965626f6441282079727473696765522f203c3c206f666e496d65747379534449432f206e616d6f522d736e6153617265566d616572;
0x2030203030365b20305b20572f20522030203520726f7470697263736544746e6f462f203e3e203020746e656d656c707075532f2029797469746e6564492820;
0x20373133203036332037313320373338203030352030393320303933203437322039373720303539203633362037333820393534203030342037313320373133;
0x20373338203733382037333820363333203633332036333620363336203633362036333620363336203633362036333620363336203633362036333620363333;
0x38343720323638203735352035353620343932203439322031353720343737203537352031333620303737203839362036383620343836203030303120303335;
0x37333820303933203633332030393320353836203031362035383620383839203438362031333720303136203433362034393620373837203330362037383720;
0x33333620343739203737322039373520373732203737322033333620343336203235332035313620343336203934352034333620323136203030352030303520;
0x37333820363336203633332036333620343235203139352031393520373138203139352033333620323933203032352031313420343336203433362031313620;
0x35313620353136203934352032313620323136203231362032313620323136203231362031333720373837203834372031333620383936203438362034383620;
0x33333620333336203333362033333620313136203131362031313620313136203131362033333620373732203737322037373220373732203531362035313620;
0x20343739203733382030303520303035203030303120303030312030303031203932362036333620393835203030352036333620363336203030352030303520;
0x20313839203436372031373420313734203032352038383520363537203337362037313520363336203633362037333820373338203733382033333820373837;
0x36303120373837203438362034383620363336203030303120313136203131362038363620373338203633362037333620373338203030342030333520313136;
0x20393933203939332036333620363631203031362031393520343934203733382037313320373133203831352038313520303030312030303520323230312039;
0x34393220343932203439322034393220313336203133362034383620313336203438362031343331203831352037313320373133203030352039323620393236;
0x30303520303035203030352030303520303035203030352030303520303035203030352037373220313337203133372031333720373837203738372037383720;
0x37333820373338203433362034303620313935203031362031313620343737203633332034323520353836203032352034333620343832203236352030303520;
0x34333620393435203839362039343520383936203032352034333620343932203433362034373720393639203936392039363920303034203030342030303420;
0x6a626f646e650a3e3e205d3e3e205d5d303035203030352030303420303035203030352030303520303035203030352030303520363336203731332030363320;
0x4f3000030080000b00000001000a6d61657274730a3e3e203237353232206874676e654c2f20323735323220316874676e654c2f203c3c0a6a626f203020380a;
0x68f61a0000500600001a18200066796c6710000000400600000900170070736167240500001c0100006cb4444570616d6360000000bc0000007ff86673322f53;
0x6d340200000826000013d342cc61636f6c64040000a42100009d03be2478746d6824000000802100003a040a07616568683600000048210000b5cd50db646165;
0x8a02bc02000005009001d60303009d0300008c540000f191f54074736f702e2c00005c280000160db0d1656d616e200000003c28000009001c01707861;
0xfc10ffc8002003000038ff2003fffe2000400020433357000000000000000048200010af00008000000000000000040002000003013200c50100008a02bc028f;
0xa500a400a300a100a0007e0026004000070000014001000010050400140000000100030014000000030000000200000000002000000020032003ffff000007;
0xc700c600c500c300c200c100c000bf00be00bd00bc00bb00ba00b900b800b700b600b500b400b300b100b000af00ae00ad00ac00ab00aa00a900a800a700a6;
0xec00eb00e900e800e700e600e500e400e300e200e100e000df00de00dd00dc00db00d900d800d700d600d500d400d200d100d000cf00cc00cb00ca00c900c8;
0x3a903a703a5039403dd02dc02db02da02c902c702c6029201780153013101ff00fe00fd00fc00fa00f900f800f700f600f500f400f300f200f100f000ef00ed;
0x300030ca25f2226522602248222b221e221a221922122211220f22062202222621222144203a203020262022201e201a201920142010200d200b200620c003bc;
0xa400a200a100a000280020000000fffffffe02f0d191b57e317e267e6b70346c6b6a2a6a28671f57db56d75641536d516b51944e8c4e5d4e094e034e004e07;
0xc600c400c300c200c100c000bf00be00bd00bc00bb00ba00b900b800b700b600b500b400b200b100b000af00ae00ad00ac00ab00aa00a900a800a700a600a5;
0xea00e900e800e700e600e500e400e300e200e100e000df00de00dd00dc00da00d900d800d700d600d500d300d200d100d000cd00cc00cb00ca00c900c800c7;
0x3a703a5039403dd02dc02db02d802c902c702c6029201780152013101ff00fe00fd00fb00fa00f900f800f700f600f500f400f300f200f100f000ee00ed00ec;
0x30ca25f2226422602248222b221e221a221922122211220f220622022226212221442039203020262020201c201a201820132010200c2009200220c003bc03a9;
0xfffdffe0fff4fff9ffe2ffe3fffffffffe00f0d191b57e317e267e6b70346c6b6a2a6a28671f57db56d75641536d516b51944e8c4e5d4e094e034e004e073000;
0xffc5ff9dffd8ffe1ffe4ffdaffd5ff0d000c000e00ddffd7ff0d000100ebffcfffdaffd5ff1500dcffd1ff0600d9ff1700eaffecffe6ffdfffe2ffddff1700e9;
0xff87ff86ff88ff87ffacff88ff87ff89ff88ff87ff89ffa7ffe4ffe3ff8bffd5ffd8ffb4ffeeff90ffc7ffd9ffdcff94ffeeffdbffdfffdbffdaff9bffdfff9c;
0xfd6bfd70fd3efdddfdd8fde0fddefdecfdf5fdedfd3fff58ff7cff81ffa1ffc5ffc4ff84ff83ff85ff9bffa8ff85ff87ff86ff85ff87ff86ffcfff87ff86ff88;
0xd024dbfbdd87de8adea5debedecadecdde89deb2ded5ded6deccdee2deaddfc1df9ee0a7e0afe0b8e0bbe0bce0bde085e0c2e0ffdff3e0f2e0f4e014fdd3fc2a;
0x100f601ef103f6f6182e782f182a290da94a996e996e799f2a929aa35aac9ad99af9daf71b276b2acb2fab204b301b304d1fe; 0x0; 0x0; 0x0; 0x0;
0xff010010000200080003000000000000000000000000000000000000000000000000000000000000000000000000000000000000000000000000000000000000;
0xfce80321112111000003002003e80338ff0000010026027de0fc20030cfef4018ffdee027d211121251121113300000700030020036b0300007d0002000300ff;
0x338ff0000010018fc200318fce80321112111000003002003e80338ff0000010018fc200318fce80321112111000003002003e80338ff0000010018fc200318;
0x321112111000003002003e80338ff0000010018fc200318fce80321112111000003002003e80338ff0000010018fc200318fce80321112111000003002003e8;
0xff0000010018fc200318fce80321112111000003002003e80338ff0000010018fc200318fce80321112111000003002003e80338ff0000010018fc200318fce8;
0x112111000003002003e80338ff0000010018fc200318fce80321112111000003002003e80338ff0000010018fc200318fce80321112111000003002003e80338;
0x10018fc200318fce80321112111000003002003e80338ff0000010018fc200318fce80321112111000003002003e80338ff0000010018fc200318fce80321;
0x11000003002003e80338ff0000010018fc200318fce80321112111000003002003e80338ff0000010018fc200318fce80321112111000003002003e80338ff00;
0x18fc200318fce80321112111000003002003e80338ff0000010018fc200318fce80321112111000003002003e80338ff0000010018fc200318fce803211121;
0x3002003e80338ff0000010018fc200318fce80321112111000003002003e80338ff0000010018fc200318fce80321112111000003002003e80338ff000001;
0xfc200318fce80321112111000003002003e80338ff0000010018fc200318fce80321112111000003002003e80338ff0000010018fc200318fce8032111211100;
0x2003e80338ff0000010018fc200318fce80321112111000003002003e80338ff0000010018fc200318fce80321112111000003002003e80338ff0000010018;
0x318fce80321112111000003002003e80338ff0000010018fc200318fce80321112111000003002003e80338ff0000010018fc200318fce80321112111000003;
0x3e80338ff0000010018fc200318fce80321112111000003002003e80338ff0000010018fc200318fce80321112111000003002003e80338ff0000010018fc20;
0xfce80321112111000003002003e80338ff0000010018fc200318fce80321112111000003002003e80338ff0000010018fc200318fce803211121110000030020;
0x338ff0000010018fc200318fce80321112111000003002003e80338ff0000010018fc200318fce80321112111000003002003e80338ff0000010018fc200318;
0x321112111000003002003e80338ff0000010018fc200318fce80321112111000003002003e80338ff0000010018fc200318fce80321112111000003002003e8;
0xff0000010018fc200318fce80321112111000003002003e80338ff0000010018fc200318fce80321112111000003002003e80338ff0000010018fc200318fce8;
0x112111000003002003e80338ff0000010018fc200318fce80321112111000003002003e80338ff0000010018fc200318fce80321112111000003002003e80338;
0x10018fc200318fce80321112111000003002003e80338ff0000010018fc200318fce80321112111000003002003e80338ff0000010018fc200318fce80321;
0x11000003002003e80338ff0000010018fc200318fce80321112111000003002003e80338ff0000010018fc200318fce80321112111000003002003e80338ff00;
0x18fc200318fce80321112111000003002003e80338ff0000010018fc200318fce80321112111000003002003e80338ff0000010018fc200318fce803211121;
0x3002003e80338ff0000010018fc200318fce80321112111000003002003e80338ff0000010018fc200318fce80321112111000003002003e80338ff000001;
0xfc200318fce80321112111000003002003e80338ff0000010018fc200318fce80321112111000003002003e80338ff0000010018fc200318fce8032111211100;
0x2003e80338ff0000010018fc200318fce80321112111000003002003e80338ff0000010018fc200318fce80321112111000003002003e80338ff0000010018;
0x318fce80321112111000003002003e80338ff0000010018fc200318fce80321112111000003002003e80338ff0000010018fc200318fce80321112111000003;
0x3e80338ff0000010018fc200318fce80321112111000003002003e80338ff0000010018fc200318fce80321112111000003002003e80338ff0000010018fc20;
0xfce80321112111000003002003e80338ff0000010018fc200318fce80321112111000003002003e80338ff0000010018fc200318fce803211121110000030020;
0x338ff0000010018fc200318fce80321112111000003002003e80338ff0000010018fc200318fce80321112111000003002003e80338ff0000010018fc200318;
0x321112111000003002003e80338ff0000010018fc200318fce80321112111000003002003e80338ff0000010018fc200318fce80321112111000003002003e8;
0xff0000010018fc200318fce80321112111000003002003e80338ff0000010018fc200318fce80321112111000003002003e80338ff0000010018fc200318fce8;
0x112111000003002003e80338ff0000010018fc200318fce80321112111000003002003e80338ff0000010018fc200318fce80321112111000003002003e80338;
0x10018fc200318fce80321112111000003002003e80338ff0000010018fc200318fce80321112111000003002003e80338ff0000010018fc200318fce80321;
0x112111000003002003e80338ff0000010000c818fce80321152131000003000000e80338ff0000010018fc200318fce80321112111000003002003e80338ff00;
0x10018fc200318fce80321112111000003002003e80338ff0000010018fc200318fce80321112111000003002003e80338ff0000010018fc200318fce80321;
0x11000003002003e80338ff0000010018fc200318fce80321112111000003002003e80338ff0000010018fc200318fce80321112111000003002003e80338ff00;
0x18fc200318fce80321112111000003002003e80338ff0000010018fc200318fce80321112111000003002003e80338ff0000010018fc200318fce803211121;
0x3002003e80338ff0000010018fc200318fce80321112111000003002003e80338ff0000010018fc200318fce80321112111000003002003e80338ff000001;
0xfc200318fce80321112111000003002003e80338ff0000010018fc200318fce80321112111000003002003e80338ff0000010018fc200318fce8032111211100;
0x2003e80338ff0000010018fc200318fce80321112111000003002003e80338ff0000010018fc200318fce80321112111000003002003e80338ff0000010018;
0x318fce80321112111000003002003e80300000000010018fc200318fce80321112111000003002003e80338ff0000010018fc200318fce80321112111000003;
0x3e80338ff0000010018fc200318fce80321112111000003002003e80338ff0000010018fc200318fce80321112111000003002003e80338ff00000100e0fc20;
0xfce80321112111000003002003e80338ff0000010018fc200318fce80321112111000003002003e80338ff0000010018fc200318fce803211121110000030020;
0x338ff0000010018fc200318fce80321112111000003002003e80338ff0000010018fc200318fce80321112111000003002003e80338ff0000010018fc200318;
0x321112111000003002003e80338ff0000010018fc200318fce80321112111000003002003e80338ff0000010018fc200318fce80321112111000003002003e8;
0xff0000010018fc200318fce80321112111000003002003e80338ff0000010018fc200318fce80321112111000003002003e80338ff0000010018fc200318fce8;
0x112111000003002003e80338ff0000010018fc200318fce80321112111000003002003e80338ff0000010018fc200318fce80321112111000003002003e80338;
0x10018fc200318fce80321112111000003002003e80338ff0000010018fc200318fce80321112111000003002003e80338ff0000010018fc200318fce80321;
0x11000003002003e80338ff0000010018fc200318fce80321112111000003002003e80338ff0000010018fc200318fce80321112111000003002003e80338ff00;
0x18fc200318fce80321112111000003002003e80338ff0000010018fc200318fce80321112111000003002003e80338ff0000010018fc200318fce803211121;
0x3002003e80338ff0000010018fc200318fce80321112111000003002003e80338ff0000010018fc200318fce80321112111000003002003e80338ff000001;
0xfc200318fce80321112111000003002003e80338ff0000010018fc200318fce80321112111000003002003e80338ff0000010018fc200318fce8032111211100;
0x2003e80338ff0000010018fc200318fce80321112111000003002003e80338ff0000010018fc200318fce80321112111000003002003e80338ff0000010018;
0x318fce80321112111000003002003e80338ff0000010018fc200318fce80321112111000003002003e80338ff0000010018fc200318fce80321112111000003;
0x3e80338ff0000010018fc200318fce80321112111000003002003e80338ff0000010018fc200318fce80321112111000003002003e80338ff0000010018fc20;
0xfce80321112111000003002003e80338ff0000010018fc200318fce80321112111000003002003e80338ff0000010018fc200318fce803211121110000030020;
0x338ff0000010018fc200318fce80321112111000003002003e80338ff0000010018fc200318fce80321112111000003002003e80338ff0000010018fc200318;
0x321112111000003002003e80338ff0000010018fc200318fce80321112111000003002003e80338ff0000010018fc200318fce80321112111000003002003e8;
0xff0000010018fc200318fce80321112111000003002003e80338ff0000010018fc200318fce80321112111000003002003e80338ff0000010018fc200318fce8;
0x112111000003002003e80338ff0000010018fc200318fce80321112111000003002003e80338ff0000010018fc200318fce80321112111000003002003e80338;
0x10018fc200318fce80321112111000003002003e80338ff0000010018fc200318fce80321112111000003002003e80338ff0000010018fc200318fce80321;
0x11000003002003e80338ff0000010018fc200318fce80321112111000003002003e80338ff0000010018fc200318fce80321112111000003002003e80338ff00;
0x18fc200318fce80321112111000003002003e80338ff0000010018fc200318fce80321112111000003002003e80338ff0000010018fc200318fce803211121;
0x3002003e80338ff0000010018fc200318fce80321112111000003002003e80338ff0000010018fc200318fce80321112111000003002003e80338ff000001;
0xfc200318fce80321112111000003002003e80338ff0000010018fc200318fce80321112111000003002003e80338ff0000010018fc200318fce8032111211100;
0x2003e80338ff0000010018fc200318fce80321112111000003002003e80338ff0000010018fc200318fce80321112111000003002003e80338ff0000010018;
0x318fce80321112111000003002003e80338ff0000010018fc200318fce80321112111000003002003e80338ff0000010018fc200318fce80321112111000003;
0x3e80338ff0000010018fc200318fce80321112111000003002003e80338ff0000010018fc200318fce80321112111000003002003e80338ff0000010018fc20;
0xfce80321112111000003002003e80338ff0000010018fc200318fce80321112111000003002003e80338ff0000010018fc200318fce803211121110000030020;
0x338ff0000010018fc200318fce80321112111000003002003e80338ff0000010018fc200318fce80321112111000003002003e80338ff0000010018fc200318;
0x321112111000003002003e80338ff0000010018fc200318fce80321112111000003002003e80338ff0000010018fc200318fce80321112111000003002003e8;
0xff0000010018fc200318fce80321112111000003002003e80338ff0000010018fc200318fce80321112111000003002003e80338ff0000010018fc200318fce8;
0x112111000003002003e80338ff0000010018fc200318fce80321112111000003002003e80338ff0000010018fc200318fce80321112111000003002003e80338;
0x10018fc200318fce80321112111000003002003e80338ff0000010018fc200318fce80321112111000003002003e80338ff0000010018fc200318fce80321;
0x11000003002003e80338ff0000010018fc200318fce80321112111000003002003e80338ff0000010018fc200318fce80321112111000003002003e80338ff00;
0x18fc200318fce80321112111000003002003e80338ff0000010018fc200318fce80321112111000003002003e80338ff0000010018fc200318fce803211121;
0x3002003e80338ff0000010018fc200318fce80321112111000003002003e80338ff0000010018fc200318fce80321112111000003002003e80338ff000001;
0xfc200318fce80321112111000003002003e80338ff0000010018fc200318fce80321112111000003002003e80338ff0000010018fc200318fce8032111211100;
0x2003e80338ff0000010018fc200318fce80321112111000003002003e80338ff0000010018fc200318fce80321112111000003002003e80338ff0000010018;
0x318fce80321112111000003002003e80338ff0000010018fc200318fce80321112111000003002003e80338ff0000010018fc200318fce80321112111000003;
0x3e80338ff0000010018fc200318fce80321112111000003002003e80338ff0000010018fc200318fce80321112111000003002003e80338ff0000010018fc20;
0xfce80321112111000003002003e80338ff0000010018fc200318fce80321112111000003002003e80338ff0000010018fc200318fce803211121110000030020;
0x338ff0000010018fc200318fce80321112111000003002003e80338ff0000010018fc200318fce80321112111000003002003e80338ff0000010018fc200318;
0x321112111000003002003e80338ff0000010018fc200318fce80321112111000003002003e80338ff0000010018fc200318fce80321112111000003002003e8;
0xff0000010018fc200318fce80321112111000003002003e80338ff0000010018fc200318fce80321112111000003002003e80338ff0000010018fc200318fce8;
0x112111000003002003e80338ff0000010018fc200318fce80321112111000003002003e80338ff0000010018fc200318fce80321112111000003002003e80338;
0x10018fc200318fce80321112111000003002003e80338ff0000010018fc200318fce80321112111000003002003e80338ff0000010018fc200318fce80321;
0x11000003002003e80338ff0000010018fc200318fce80321112111000003002003e80338ff0000010018fc200318fce80321112111000003002003e80338ff00;
0x18fc200318fce80321112111000003002003e80338ff0000010018fc200318fce80321112111000003002003e80338ff0000010018fc200318fce803211121;
0x3002003e80338ff0000010018fc200318fce80321112111000003002003e80338ff0000010018fc200318fce80321112111000003002003e80338ff000001;
0xfc200318fce80321112111000003002003e80338ff0000010018fc200318fce80321112111000003002003e80338ff0000010018fc200318fce8032111211100;
0x2003e80338ff0000010018fc200318fce80321112111000003002003e80338ff0000010018fc200318fce80321112111000003002003e80338ff0000010018;
0x318fce80321112111000003002003e80338ff0000010018fc200318fce80321112111000003002003e80338ff0000010018fc200318fce80321112111000003;
0x3e80338ff0000010018fc200318fce80321112111000003002003e80338ff0000010018fc200318fce80321112111000003002003e80338ff0000010018fc20;
0xfce80321112111000003002003e80338ff0000010018fc200318fce80321112111000003002003e80338ff0000010018fc200318fce803211121110000030020;
0x338ff0000010018fc200318fce80321112111000003002003e80338ff0000010018fc200318fce80321112111000003002003e80338ff0000010018fc200318;
0x321112111000003002003e80338ff0000010018fc200318fce80321112111000003002003e80338ff0000010018fc200318fce80321112111000003002003e8;
0xff0000010018fc200318fce80321112111000003002003e80338ff0000010018fc200318fce80321112111000003002003e80338ff0000010018fc200318fce8;
0x112111000003002003e80338ff0000010018fc200318fce80321112111000003002003e80338ff0000010018fc200318fce80321112111000003002003e80338;
0x10018fc200318fce80321112111000003002003e80338ff0000010018fc200318fce80321112111000003002003e80338ff0000010018fc200318fce80321;
0x11000003002003e80338ff0000010018fc200318fce80321112111000003002003e80338ff0000010018fc200318fce80321112111000003002003e80338ff00;
0x18fc200318fce80321112111000003002003e80338ff0000010018fc200318fce80321112111000003002003e80338ff0000010018fc200318fce803211121;
0x3002003e80338ff0000010018fc200318fce80321112111000003002003e80338ff0000010018fc200318fce80321112111000003002003e80338ff000001;
0xfc200318fce80321112111000003002003e80338ff0000010018fc200318fce80321112111000003002003e80338ff0000010018fc200318fce8032111211100;
0x2003e80338ff0000010018fc200318fce80321112111000003002003e80338ff0000010018fc200318fce80321112111000003002003e80338ff0000010018;
0x318fce80321112111000003002003e80338ff0000010018fc200318fce80321112111000003002003e80338ff0000010018fc200318fce80321112111000003;
0x2e80390010000010000c8580218fce80321152111000003005802e80390010000010000c8580218fce80321152111000003005802e80390010000010018fc20;
0xc8c8c823113313000003002003900138ffc80001000018fc2003c8c8c823113313000003002003900138ffc800010000c8580218fce803211521110000030058;
0x10000000018fc2003c8c8c823113313000003002003900138ffc80001000018fc2003c8c8c823113313000003002003900138ffc80001000018fc2003;
0xe803000038ff2003000001000000000000000000030000002003e80338ff000024abddc400000000595f6fb300000000e8030900f53c0f5fca8a34fe008001;
0x30000e8030000e8030000e8030000e8030000e8030000e8030000e8030000e803000000007d00e803190100000000000000000000000000000100e803000000;
0x30000e8030000e8030000e8030000e8030000e8030000e8030000e8030000e8030000e8030000e8030000e8030000e8030000e8030000e8030000e8030000e8;
0x30000e8030000e8030000e8030000e8030000e8030000e8030000e8030000e8030000e8030000e8030000e8030000e8030000e8030000e8030000e8030000e8;
0x30000e8030000e8030000e8030000e8030000e8030000e8030000e8030000e8030000e8030000e8030000e8030000e8030000e8030000e8030000e8030000e8;
0x30000e8030000e8030000e8030000e8030000e8030000e8030000e8030000e8030000e8030000e8030000e8030000e8030000e8030000e8030000e8030000e8;
0x30000e8030000e8030000e8030000e8030000e8030000e8030000e8030000e8030000e8030000e8030000e8030000e8030000e8030000e8030000e8030000e8;
0x30000e8030000e8030000e8030000e8030000e8030000e8030000e8030000e8030000e8030000e8030000e8030000e8030000e8030000e8030000e8030000e8;
0x30000e8030000e8030000e8030000e8030000e8030000e8030000e8030000e8030000e8030000e8030000e8030000e8030000e8030000e8030000e8030000e8;
0x30000e8030000e8030000e8030000e8030000e8030000e8030000e8030000e8030000e8030000e8030000e8030000e8030000e8030000e8030000e8030000e8;
0x30000e8030000e8030000e8030000e8030000e8030000e8030000e8030000e8030000e8030000e8030000e8030000e8030000e8030000e8030000e8030000e8;
0x30000e8030000e8030000e8030000e8030000e8030000e8030000e8030000e8030000e8030000e8030000e8030000e8030000e8030000e8030000e8030000e8;
0x30000e8030000e8030000e8030000e8030000e8030000e8030000e8030000e8030000e8030000e8030000e8030000e8030000e8030000e8030000e8030000e8;
0x30000e8030000e8030000e8030000e8030000e8030000e8030000e8030000e8030000e8030000e8030000e8030000e8030000e8030000e8030000e8030000e8;
0x30000e8030000e8030000e8030000e8030000e8030000e8030000e8030000e8030000e8030000e8030000e8030000e8030000e8030000e8030000e8030000e8;
0x30000e8030000e8030000e8030000e8030000e8030000e8030000e8030000e8030000e8030000e8030000e8030000e8030000e8030000e8030000e8030000e8;
0xfa0000004d010000e8030000f401000000000000e8030000e8030000e8030000e8030000e8030000e8030000e8030000e8030000e8030000e8030000e8;
0x30000e8030000e8030000e8030000e8030000e8030000e8030000e8030000e8030000e80300000000000000000000e80300000000000064000000c8000000a7;
0x14000000c800e803c800e803c800e803c800e8030000e8030000e8030000e8030000e8030000e8030000e8030000e8030000e8030000e8030000e8030000e8;
0x18d0180017301660159014c013f013201250118010b01fe00f100e400d700ca00bd00b000a300960089007c006f006200550048003b002e0021001400140014;
0x32d03200313030603f902ec02df02d202c502b802ab029e029102840277026a025d0250024302360229021c020f020202f501e801db01ce01c101b401a7019a;
0x4cc04bf04b204a50498048b047e047104640457044a043d043004230416040a04fd03f003e303d603c903bc03af03a203950388037b036e036103540347033a;
0x66c065f065206450638062b061e0611060406f705ea05dd05d005c305b605a9059c058f058205750568055b054e054105340527051a050d050005f304e604d9;
0x8ff07f207e507d807cb07be07b107a407a40797078a077d0770076307560749073c072f07220715070807fb06ee06e106d406c706ba06ad06a0069306860679;
0x99f099209850978096b095e095109440937092a091d0910090309f608e908dc08cf08c208b508a8089b088e088108740867085a084d0840083308260819080c;
0xb3f0b320b250b180b0b0bfe0af10ae40ad70aca0abd0ab00aa30a960a890a7c0a6f0a620a550a480a3b0a2e0a210a140a070afa09ed09e009d309c609b909ac;
0xc430c430c430c430c430c430c430c430c430c430c430c430c430c360c290c1c0c0f0c020cf50be80bdb0bce0bc10bb40ba70b9a0b8d0b800b730b660b590b4c;
0x10000000000020008001901000001007b0d6e0d610d540d470d3a0d2d0d200d130d060df90cec0cdf0cd20cc50cb80cab0c9e0c910c840c770c6a0c5d0c50;
0xf8010e000200000000000000f001080001000000000000000000f0010000000000000000b60124000000000000000000000000000000000000;
0x1324000b000000000000005002ae110a000000000000004802080006000000000000003002180005000000000000002802080004000000000000000602220003;
0x1007715110003000000000001007015070002000000000001006c15040001000000000001007414f8000000000000000100221452000e00000000000000fe;
0x1009c1512000b000000000001009c1500000a000000000001009815040006000000000001008c150c000500000000000100881504000400000000;
0x1708000100090401000300e615f0010000090401000300e21504001200000000000100db1507001100000000000100d71504001000000000000100ae1529000e;
0x3002e18080006000904010003001618180005000904010003000e1808000400090401000300ec1722000300090401000300de170e000200090401000300d6;
0x90401000300622a0e0011000904010003005a2a08001000090401000300082a52000e00090401000300e42924000b000904010003003618ae110a00090401;
0x200065006800740020006f0074002000730067006e006f006c0065006200200074006e006f00660020006d006500680041002000650068005400702a080012;
0x200073006e006f006900740063006900640073006900720075006a0020006e00490020002e006e00690061006d006f0064002000630069006c006200750070;
0x6d006f0064002000630069006c00620075007000200065007a0069006e0067006f00630065007200200074006f006e0020006f006400200074006100680074;
0x6800740020002c00730065006c0069006600200065007300650068007400200066006f0020007000690068007300720065006e0077006f0020006e00690061;
0x720065005a00200073006e006f006d006d006f004300200065007600690074006100650072004300200067006e00690077006f006c006c006f006600200065;
0x61006c002f002f003a00700074007400680020003a007300650069006c0070007000610020006e006f00690074006100720061006c0063006500640020006f;
0x2f007300650073006e006500630069006c002f00670072006f002e0073006e006f006d006d006f006300650076006900740061006500720063002e00730062;
0x52006d00650068004100650064006f0063006c006100670065006c002f00730075002f0030002e0031002f00650076006900610077002d006f00720065007a;
0x690073007200650056006d006500680041006d006500680041002000300035002e00310020006e006f0069007300720065005600720061006c007500670065;
0x7600650064002000730061007700200074006e006f00660020006d0065006800410020006500680054006d00650068004100300035002e00310020006e006f;
0x730065006c0079004d00200064006e0061002000720065006e0072006800610046002000640064006f00540020007900620020006400650070006f006c0065;
0x72006500740069007200770020007400730065007400200070006c006500680020006f007400200064006c00650069006600780061004d0020002e00430020;
0x65006800540020002e0073007400730065007400200065006c00620061007400630069006400650072007000200070006f006c006500760065006400200073;
0x6e006100760064006100200065006800740020002c00300030003000310020007300690020006d006500200072006500700020007300740069006e00750020;
0x30003200200073006900200074006e00650063007300650064002000650068007400200064006e00610020002c003000300038002000730069002000650063;
0x200065007200610075007100730020006d0065002000650068007400200067006e0069006b0061006d002000790062006500720065006800740020002c0030;
0x6d00200072006f006600200073006800700079006c006700200065006800540020002e00650072006100750071007300200079006c00740063006100780065;
0x7700200078006f00620020006100200079006c0070006d0069007300200073006900200073007200650074006300610072006100680063002000740073006f;
0x650064006f006300200065006800540020002e0065007200610075007100730020007300690068007400200073006c006c0069006600200068006300690068;
0x7200610075007100730020006c006c00750066002000730069006800740020006f0074002000640065007000700061006d002000730074006e0069006f0070;
0x6f006600200065006800740020006500720061002000650063006e00610076006400610020006c006c00750066002000610020006800740069007700200065;
0x2d00380032002b00550020002c00360032002b0055002d00300032002b00550020003a007300650067006e0061007200200067006e00690077006f006c006c;
0x410043002b00550020002c00380043002b0055002d00300041002b00550020002c00450037002b0055002d00310037002b00550020002c00460036002b0055;
0x3800370031002b00550020002c003300350031002b0055002d003200350031002b00550020002c003100330031002b00550020002c00460046002b0055002d;
0x32002b00550020002c003900430032002b00550020002c003700430032002b0055002d003600430032002b00550020002c003200390031002b00550020002c;
0x550020002c003700410033002b00550020002c003500410033002b00550020002c003400390033002b00550020002c004400440032002b0055002d00380044;
0x3100300032002b0055002d0033003100300032002b00550020002c003000430033002b00550020002c004300420033002b00550020002c003900410033002b;
0x2c0045003100300032002b0055002d0043003100300032002b00550020002c0041003100300032002b0055002d0038003100300032002b00550020002c0034;
0x20002c0030003300300032002b00550020002c0036003200300032002b00550020002c0032003200300032002b0055002d0030003200300032002b00550020;
0x550020002c0032003200310032002b00550020002c0034003400300032002b00550020002c0041003300300032002b0055002d0039003300300032002b0055;
0x550020002c0046003000320032002b00550020002c0036003000320032002b00550020002c0032003000320032002b00550020002c0036003200310032002b;
0x32002b00550020002c0041003100320032002b0055002d0039003100320032002b00550020002c0032003100320032002b0055002d0031003100320032002b;
0x32002b00550020002c0030003600320032002b00550020002c0038003400320032002b00550020002c0042003200320032002b00550020002c004500310032;
0x300033002b00550020002c0041004300350032002b00550020002c0032004600320032002b00550020002c0035003600320032002b0055002d003400360032;
0x450034002b00550020002c0039003000450034002b00550020002c0033003000450034002b00550020002c0030003000450034002b00550020002c00370030;
0x310035002b00550020002c0042003600310035002b00550020002c0034003900450034002b00550020002c0043003800450034002b00550020002c00440035;
0x370035002b00550020002c0042004400360035002b00550020002c0037004400360035002b00550020002c0031003400330035002b00550020002c00440036;
0x310039002b00550020002c0042003600300037002b00550020002c0034003300430036002b00550020002c0038003200370036002b00550020002c00460031;
0x74006e0069006f007000650064006f006300200065006800540020002e0032003000300046002b0055002d0030003000300046002b00550020002c00310044;
0x200067006e0069006800740065006d006f00730020006f0074002000640065007000700061006d002000650072006100200068006300690068007700200073;
0x32002b0055002800200022002000220020003a0067006e00690077006f006c006c006f006600200065006800740020006500720061002000650073006c0065;
0x7000220020003b00650063006e00610076006400610020006c006c007500660020007400750062002000680074006100700020006f004e0020003a00290030;
0x2000740075006200200074006e0065006300730061002000300020007300610068002000680074006100500020003a002900300037002b0055002800200022;
0x68002000680074006100500020003a002900390043002b005500280020002200c900220020003b0074006e006500630073006500640020006c006c00750066;
0x6f004e0020003b0074006e00650063007300610020006c006c00750066002000740075006200200074006e0065006300730065006400200030002000730061;
0x680074006100700020006f004e0020003a002900300041002b0055002800200065006300610070007300200067006e0069006b0061006500720062002d006e;
0x6f006e002000680074006400690077002d006f00720065005a0020003b00650063006e00610076006400610020006c006c0075006600200074007500620020;
0x6100700020006f004e0020003a00290046004600450046002b0055002800200065006300610070007300200067006e0069006b0061006500720062002d006e;
0x300032002b005500280020006500630061007000730020006e00450020003b00650063006e00610076006400610020003000200064006e0061002000680074;
0x450020003b00650063006e006100760064006100200066006c0061006800200064006e0061002000680074006100700020006f004e0020003a002900320030;
0x7500660020007400750062002000680074006100700020006f004e0020003a00290033003000300032002b005500280020006500630061007000730020006d;
0x280020006500630061007000730020006d0065002d007200650070002d006500650072006800540020003b00650063006e00610076006400610020006c006c;
0x6100200064007200690068007400200065006e006f00200064006e0061002000680074006100700020006f004e0020003a00290034003000300032002b0055;
0x3000300032002b005500280020006500630061007000730020006d0065002d007200650070002d00720075006f00460020003b00650063006e006100760064;
0x610076006400610020007200650074007200610075007100200065006e006f00200064006e0061002000680074006100700020006f004e0020003a00290035;
0x20003a00290036003000300032002b005500280020006500630061007000730020006d0065002d007200650070002d0078006900530020003b00650063006e;
0x540020003b00650063006e006100760064006100200068007400780069007300200065006e006f00200064006e0061002000680074006100700020006f004e;
0x200064006e0061002000680074006100700020006f004e0020003a00290039003000300032002b005500280020006500630061007000730020006e00690068;
0x550028002000650063006100700073002000720069006100480020003b00650063006e006100760064006100200068007400660069006600200065006e006f;
0x640061002000680074006e0065007400200065006e006f00200064006e0061002000680074006100700020006f004e0020003a00290041003000300032002b;
0x290042003000300032002b005500280020006500630061007000730020006800740064006900770020006f00720065005a0020003b00650063006e00610076;
0x720067006f0065006400490020003b00650063006e00610076006400610020006f006e00200064006e0061002000680074006100700020006f004e0020003a;
0x750062002000680074006100700020006f004e0020003a00290030003000300033002b00550028002000650063006100700073002000630069006800700061;
0x6a002d006e006f006e0020006800740064006900770020006f00720065005a0020003b00650063006e00610076006400610020006c006c0075006600200074;
0x610020006f006e00200064006e0061002000680074006100700020006f004e0020003a00290043003000300032002b00550028002000720065006e0069006f;
0x3000300032002b00550028002000720065006e0069006f006a0020006800740064006900770020006f00720065005a0020003b00650063006e006100760064;
0x650065007200470020003b00650063006e00610076006400610020006f006e00200064006e0061002000680074006100700020006f004e0020003a00290044;
0x6800540020003a0029003700410033002b005500280020006900680043002000720065007400740065006c0020006c0061007400690070006100630020006b;
0x6400610020006c006c0075006600200064006e006100200065007000690072007400730020006c00610074006e006f007a00690072006f00680020006e0069;
0x6f007a00690072006f00680020006e0069006800540020003a00290041003200410036002b0055002800200022002a6a220020003b00650063006e00610076;
0x6b6a220020003b00650063006e00610076006400610020006c006c0075006600200064006e006100200065007000690072007400730020006c00610074006e;
0x690072007400730020006c00610074006e006f007a00690072006f00680020006e0069006800540020003a00290042003600410036002b0055002800200022;
0x7400690070006100630020006b00650065007200470020003b00650063006e00610076006400610020006c006c0075006600200064006e0061002000650070;
0x20006e0069006800540020003a0029003500410033002b005500280020006e006f006c0069007300700055002000720065007400740065006c0020006c0061;
0x650063006e00610076006400610020006c006c0075006600200064006e006100200065007000690072007400730020006c0061006300690074007200650076;
0x7400730020006c00610063006900740072006500760020006e0069006800540020003a00290035004200450037002b005500280020002200b57e220020003b;
0x37002b005500280020002200267e2200200020003b00650063006e00610076006400610020006c006c0075006600200064006e006100200065007000690072;
0x6600200064006e006100200065007000690072007400730020006c00610063006900740072006500760020006e0069006800540020003a0029003600320045;
0x6e0069006800540020003a00290031003300450037002b005500280020002200317e2200200020003b00650063006e00610076006400610020006c006c0075;
0x63006e00610076006400610020006c006c0075006600200064006e006100200065007000690072007400730020006c00610063006900740072006500760020;
0x77002e007600650064002f002f003a007000740074006800670072006f002e006300330077002e007700770077002f002f003a0070007400740068002e0065;
0x656841206568540a0047004e004900590050004f0043002f006d006500680061002f00730074006e006f0066002f005300530043002f00670072006f002e0033;
0x6f6e206f64207461687420736e6f6974636964736972756a206e49202e6e69616d6f642063696c62757020656874206f742073676e6f6c656220746e6f66206d;
0x6e69776f6c6c6f6620656874202c73656c696620657365687420666f207069687372656e776f206e69616d6f642063696c62757020657a696e676f6365722074;
0x766974616572632e7362616c2f2f3a70747468203a7365696c707061206e6f69746172616c636564206f72655a20736e6f6d6d6f432065766974616572432067;
0x7372655672616c756765526d65684165646f636c6167656c2f73752f302e312f65766961772d6f72657a2f7365736e6563696c2f67726f2e736e6f6d6d6f6365;
0x33772e7665642f2f3a7074746867726f2e6333772e7777772f2f3a707474686d65684130352e31206e6f69737265566d6568416d6568412030352e31206e6f69;
0x660020006d0065006800410020006500680054006d65684172616c756765526d6568410a474e4959504f432f6d6568612f73746e6f662f5353432f67726f2e;
0x6e00690061006d006f0064002000630069006c00620075007000200065006800740020006f0074002000730067006e006f006c0065006200200074006e006f;
0x7200200074006f006e0020006f00640020007400610068007400200073006e006f006900740063006900640073006900720075006a0020006e00490020002e;
0x7000690068007300720065006e0077006f0020006e00690061006d006f0064002000630069006c00620075007000200065007a0069006e0067006f00630065;
0x4300200067006e00690077006f006c006c006f006600200065006800740020002c00730065006c0069006600200065007300650068007400200066006f0020;
0x6e006f00690074006100720061006c0063006500640020006f00720065005a00200073006e006f006d006d006f004300200065007600690074006100650072;
0x6f006300650076006900740061006500720063002e007300620061006c002f002f003a00700074007400680020003a007300650069006c0070007000610020;
0x2e0031002f00650076006900610077002d006f00720065007a002f007300650073006e006500630069006c002f00670072006f002e0073006e006f006d006d;
0x6e006f0069007300720065005600720061006c0075006700650052006d00650068004100650064006f0063006c006100670065006c002f00730075002f0030;
0x680054006d00650068004100300035002e00310020006e006f00690073007200650056006d006500680041006d006500680041002000300035002e00310020;
0x64006f00540020007900620020006400650070006f006c0065007600650064002000730061007700200074006e006f00660020006d00650068004100200065;
0x200064006c00650069006600780061004d0020002e0043002000730065006c0079004d00200064006e0061002000720065006e007200680061004600200064;
0x650072007000200070006f006c0065007600650064002000730072006500740069007200770020007400730065007400200070006c006500680020006f0074;
0x6d006500200072006500700020007300740069006e007500200065006800540020002e0073007400730065007400200065006c006200610074006300690064;
0x6e00610020002c003000300038002000730069002000650063006e006100760064006100200065006800740020002c00300030003000310020007300690020;
0x61006d002000790062006500720065006800740020002c00300030003200200073006900200074006e00650063007300650064002000650068007400200064;
0x72006100750071007300200079006c0074006300610078006500200065007200610075007100730020006d0065002000650068007400200067006e0069006b;
0x7200650074006300610072006100680063002000740073006f006d00200072006f006600200073006800700079006c006700200065006800540020002e0065;
0x68007400200073006c006c0069006600200068006300690068007700200078006f00620020006100200079006c0070006d0069007300200073006900200073;
0x640065007000700061006d002000730074006e0069006f007000650064006f006300200065006800540020002e006500720061007500710073002000730069;
0x6c006c00750066002000610020006800740069007700200065007200610075007100730020006c006c00750066002000730069006800740020006f00740020;
0x650067006e0061007200200067006e00690077006f006c006c006f006600200065006800740020006500720061002000650063006e00610076006400610020;
0x2b0055002d00310037002b00550020002c00460036002b0055002d00380032002b00550020002c00360032002b0055002d00300032002b00550020003a0073;
0x2c003100330031002b00550020002c00460046002b0055002d00410043002b00550020002c00380043002b0055002d00300041002b00550020002c00450037;
0x430032002b00550020002c003200390031002b00550020002c003800370031002b00550020002c003300350031002b0055002d003200350031002b00550020;
0x33002b00550020002c004400440032002b0055002d003800440032002b00550020002c003900430032002b00550020002c003700430032002b0055002d0036;
0x20002c004300420033002b00550020002c003900410033002b00550020002c003700410033002b00550020002c003500410033002b00550020002c00340039;
0x32002b0055002d0038003100300032002b00550020002c0034003100300032002b0055002d0033003100300032002b00550020002c003000430033002b0055;
0x3200300032002b0055002d0030003200300032002b00550020002c0045003100300032002b0055002d0043003100300032002b00550020002c004100310030;
0x41003300300032002b0055002d0039003300300032002b00550020002c0030003300300032002b00550020002c0036003200300032002b00550020002c0032;
0x32003000320032002b00550020002c0036003200310032002b00550020002c0032003200310032002b00550020002c0034003400300032002b00550020002c;
0x2c0032003100320032002b0055002d0031003100320032002b00550020002c0046003000320032002b00550020002c0036003000320032002b00550020002c;
0x20002c0042003200320032002b00550020002c0045003100320032002b00550020002c0041003100320032002b0055002d0039003100320032002b00550020;
0x550020002c0035003600320032002b0055002d0034003600320032002b00550020002c0030003600320032002b00550020002c0038003400320032002b0055;
0x550020002c0030003000450034002b00550020002c0037003000300033002b00550020002c0041004300350032002b00550020002c0032004600320032002b;
0x550020002c0043003800450034002b00550020002c0044003500450034002b00550020002c0039003000450034002b00550020002c0033003000450034002b;
0x550020002c0031003400330035002b00550020002c0044003600310035002b00550020002c0042003600310035002b00550020002c0034003900450034002b;
0x550020002c0038003200370036002b00550020002c0046003100370035002b00550020002c0042004400360035002b00550020002c0037004400360035002b;
0x2b0055002d0030003000300046002b00550020002c0031004400310039002b00550020002c0042003600300037002b00550020002c0034003300430036002b;
0x6d0020006500720061002000680063006900680077002000730074006e0069006f007000650064006f006300200065006800540020002e0032003000300046;
0x200065006800740020006500720061002000650073006c006500200067006e0069006800740065006d006f00730020006f0074002000640065007000700061;
0x62002000680074006100700020006f004e0020003a002900300032002b0055002800200022002000220020003a0067006e00690077006f006c006c006f0066;
0x74006100500020003a002900300037002b0055002800200022007000220020003b00650063006e00610076006400610020006c006c00750066002000740075;
0x3b0074006e006500630073006500640020006c006c00750066002000740075006200200074006e006500630073006100200030002000730061006800200068;
0x200074006e00650063007300650064002000300020007300610068002000680074006100500020003a002900390043002b005500280020002200c900220020;
0x70007300200067006e0069006b0061006500720062002d006e006f004e0020003b0074006e00650063007300610020006c006c007500660020007400750062;
0x76006400610020006c006c007500660020007400750062002000680074006100700020006f004e0020003a002900300041002b005500280020006500630061;
0x70007300200067006e0069006b0061006500720062002d006e006f006e002000680074006400690077002d006f00720065005a0020003b00650063006e0061;
0x610076006400610020003000200064006e0061002000680074006100700020006f004e0020003a00290046004600450046002b005500280020006500630061;
0x2000680074006100700020006f004e0020003a00290032003000300032002b005500280020006500630061007000730020006e00450020003b00650063006e;
0x300032002b005500280020006500630061007000730020006d00450020003b00650063006e006100760064006100200066006c0061006800200064006e0061;
0x540020003b00650063006e00610076006400610020006c006c007500660020007400750062002000680074006100700020006f004e0020003a002900330030;
0x700020006f004e0020003a00290034003000300032002b005500280020006500630061007000730020006d0065002d007200650070002d0065006500720068;
0x2d00720075006f00460020003b00650063006e006100760064006100200064007200690068007400200065006e006f00200064006e00610020006800740061;
0x61002000680074006100700020006f004e0020003a00290035003000300032002b005500280020006500630061007000730020006d0065002d007200650070;
0x2d007200650070002d0078006900530020003b00650063006e00610076006400610020007200650074007200610075007100200065006e006f00200064006e;
0x6f00200064006e0061002000680074006100700020006f004e0020003a00290036003000300032002b005500280020006500630061007000730020006d0065;
0x2b005500280020006500630061007000730020006e0069006800540020003b00650063006e006100760064006100200068007400780069007300200065006e;
0x760064006100200068007400660069006600200065006e006f00200064006e0061002000680074006100700020006f004e0020003a00290039003000300032;
0x6100700020006f004e0020003a00290041003000300032002b00550028002000650063006100700073002000720069006100480020003b00650063006e0061;
0x770020006f00720065005a0020003b00650063006e0061007600640061002000680074006e0065007400200065006e006f00200064006e0061002000680074;
0x64006e0061002000680074006100700020006f004e0020003a00290042003000300032002b0055002800200065006300610070007300200068007400640069;
0x2800200065006300610070007300200063006900680070006100720067006f0065006400490020003b00650063006e00610076006400610020006f006e0020;
0x63006e00610076006400610020006c006c007500660020007400750062002000680074006100700020006f004e0020003a00290030003000300033002b0055;
0x43003000300032002b00550028002000720065006e0069006f006a002d006e006f006e0020006800740064006900770020006f00720065005a0020003b0065;
0x20006f00720065005a0020003b00650063006e00610076006400610020006f006e00200064006e0061002000680074006100700020006f004e0020003a0029;
0x61002000680074006100700020006f004e0020003a00290044003000300032002b00550028002000720065006e0069006f006a002000680074006400690077;
0x740065006c0020006c0061007400690070006100630020006b00650065007200470020003b00650063006e00610076006400610020006f006e00200064006e;
0x6c00610074006e006f007a00690072006f00680020006e0069006800540020003a0029003700410033002b0055002800200069006800430020007200650074;
0x55002800200022002a6a220020003b00650063006e00610076006400610020006c006c0075006600200064006e006100200065007000690072007400730020;
0x6100200065007000690072007400730020006c00610074006e006f007a00690072006f00680020006e0069006800540020003a00290041003200410036002b;
0x540020003a00290042003600410036002b0055002800200022006b6a220020003b00650063006e00610076006400610020006c006c0075006600200064006e;
0x610020006c006c0075006600200064006e006100200065007000690072007400730020006c00610074006e006f007a00690072006f00680020006e00690068;
0x7300700055002000720065007400740065006c0020006c0061007400690070006100630020006b00650065007200470020003b00650063006e006100760064;
0x690072007400730020006c00610063006900740072006500760020006e0069006800540020003a0029003500410033002b005500280020006e006f006c0069;
0x35004200450037002b005500280020002200b57e220020003b00650063006e00610076006400610020006c006c0075006600200064006e0061002000650070;
0x6c006c0075006600200064006e006100200065007000690072007400730020006c00610063006900740072006500760020006e0069006800540020003a0029;
0x6500760020006e0069006800540020003a00290036003200450037002b005500280020002200267e2200200020003b00650063006e00610076006400610020;
0x20003b00650063006e00610076006400610020006c006c0075006600200064006e006100200065007000690072007400730020006c00610063006900740072;
0x72007400730020006c00610063006900740072006500760020006e0069006800540020003a00290031003300450037002b005500280020002200317e220020;
0x2e007700770077002f002f003a0070007400740068002e00650063006e00610076006400610020006c006c0075006600200064006e00610020006500700069;
0x6e006f0066002f005300530043002f00670072006f002e00330077002e007600650064002f002f003a007000740074006800670072006f002e006300330077;
0x6d00650068004100720061006c0075006700650052006d006500680041000a0047004e004900590050004f0043002f006d006500680061002f00730074;
0xf000e000d000c000b0009000800070006000500040003000301020100001901000000000000000000000000000000000000000014007bff00000000000002;
0x2f002e002d002c002b002a0029002800270026002500240023002200210020001f001e001d001c001b001a0019001800170016001500140013001200110010;
0x4f004e004d004c004b004a0049004800470046004500440043004200410040003f003e003d003c003b003a0039003800370036003500340033003200310030;
0x6f006e006d006c006b006a0069006800670066006500640063006200610060005f005e005d005c005b005a0059005800570056005500540053005200510050;
0x96009300910090008e008d008b008a00890088008600850084008300810080007f007e007d007c007b007a0079007800770076007500740073007200710070;
0xd300d100d000cf00ce00cd00cc00cb00ca00c900c800c700c300bd00ba00b800b700b600af00ae00ad00ac00aa00a900a400a300a200a100a0009e009d0097;
0xb00005010401f600f500f400f300f200f100f000ef00ee00ed00ec00eb00ea00e900e800e100e000df00de00dd00dc00db00da00d900d800d700d600d500d4;
0xb900a700950094008f009c009200a50099009a0098008c00bc00bf00be00c600ab008700c2008200c500b500b400c400b300b2009b009f00a800a600bb00b1;
0x1210120011f011e011d011c011b011a0119011801170116011501140113011201110110010f010e010d010c010b010a0109010801070102000601c100c000d2;
0x4546696e75074c4544035448023530326870796c67083430326870796c67083334326870796c67084c4c554e042b012a01290128012701260125012401230122;
0x3032696e750741303032696e750739303032696e750736303032696e750735303032696e750734303032696e750733303032696e750732303032696e75074646;
0x696e750742443635696e750739304534696e750743384534696e750730304534696e750731303369696661073436363136696966610930303033696e75074230;
0x696e750737443635696e750737303033696e750731343335696e750744354534696e750742363135696e750733304534696e750744363135696e750734394534;
0x696e750742364136696e750741324136696e750737413330696e750746313735696e750731443139696e750738323736696e750734334336696e750742363037;
0x7079542f203c3c0a6a626f203020390a6a626f646e650a6d6165727473646e650a00000031334537696e750736324537696e750735424537696e750735413330;
0x412f205d3030382030303031203030322d20305b20786f4242746e6f462f206d6568412f20656d614e746e6f462f20726f7470697263736544746e6f462f2065;
0x34207367616c462f203020656c676e4163696c6174492f2052203020382032656c6946746e6f462f203030322d20746e65637365442f2030303820746e656373;
0x74676e654c2f203c3c0a6a626f20302030310a6a626f646e650a3e3e20303820486d6574532f20303820566d6574532f20303038207468676965487061432f20;
0x656220746369642032310a6e6967656220656372756f736572646e696620746553636f72502f2074696e494449432f0a6d61657274730a3e3e20303133342068;
0x5343552820676e69726564724f2f202965626f6441282079727473696765522f203c3c0a6f666e496d65747379534449432f0a70616d636e696765620a6e6967;
0x795470614d432f0a666564205343552d797469746e6564492d65626f64412f20656d614e70614d432f0a666564203e3e203020746e656d656c707075532f2029;
0x310a65676e6172656361707365646f63646e650a3e666666663c203e303030303c0a65676e6172656361707365646f636e6967656220310a6665642032206570;
0x203e363030303c0a3e323230303c203e353030303c0a3e313230303c203e343030303c0a3e303230303c203e333030303c0a7261686366626e69676562203030;
0x3c0a3e383230303c203e613030303c0a3e363230303c203e393030303c0a3e353230303c203e383030303c0a3e343230303c203e373030303c0a3e333230303c;
0x303c203e663030303c0a3e633230303c203e653030303c0a3e623230303c203e643030303c0a3e613230303c203e633030303c0a3e393230303c203e62303030;
0x30303c0a3e313330303c203e333130303c0a3e303330303c203e323130303c0a3e663230303c203e313130303c0a3e653230303c203e303130303c0a3e643230;
0x3330303c203e383130303c0a3e353330303c203e373130303c0a3e343330303c203e363130303c0a3e333330303c203e353130303c0a3e323330303c203e3431;
0x643130303c0a3e613330303c203e633130303c0a3e393330303c203e623130303c0a3e383330303c203e613130303c0a3e373330303c203e393130303c0a3e36;
0x3e663330303c203e313230303c0a3e653330303c203e303230303c0a3e643330303c203e663130303c0a3e633330303c203e653130303c0a3e623330303c203e;
0x203e363230303c0a3e333430303c203e353230303c0a3e323430303c203e343230303c0a3e313430303c203e333230303c0a3e303430303c203e323230303c0a;
0x3c0a3e383430303c203e613230303c0a3e373430303c203e393230303c0a3e363430303c203e383230303c0a3e353430303c203e373230303c0a3e343430303c;
0x303c203e663230303c0a3e633430303c203e653230303c0a3e623430303c203e643230303c0a3e613430303c203e633230303c0a3e393430303c203e62323030;
0x30303c0a3e313530303c203e333330303c0a3e303530303c203e323330303c0a3e663430303c203e313330303c0a3e653430303c203e303330303c0a3e643430;
0x3530303c203e383330303c0a3e353530303c203e373330303c0a3e343530303c203e363330303c0a3e333530303c203e353330303c0a3e323530303c203e3433;
0x643330303c0a3e613530303c203e633330303c0a3e393530303c203e623330303c0a3e383530303c203e613330303c0a3e373530303c203e393330303c0a3e36;
0x3e663530303c203e313430303c0a3e653530303c203e303430303c0a3e643530303c203e663330303c0a3e633530303c203e653330303c0a3e623530303c203e;
0x203e363430303c0a3e333630303c203e353430303c0a3e323630303c203e343430303c0a3e313630303c203e333430303c0a3e303630303c203e323430303c0a;
0x3c0a3e383630303c203e613430303c0a3e373630303c203e393430303c0a3e363630303c203e383430303c0a3e353630303c203e373430303c0a3e343630303c;
0x303c203e663430303c0a3e633630303c203e653430303c0a3e623630303c203e643430303c0a3e613630303c203e633430303c0a3e393630303c203e62343030;
0x30303c0a3e313730303c203e333530303c0a3e303730303c203e323530303c0a3e663630303c203e313530303c0a3e653630303c203e303530303c0a3e643630;
0x3730303c203e383530303c0a3e353730303c203e373530303c0a3e343730303c203e363530303c0a3e333730303c203e353530303c0a3e323730303c203e3435;
0x643530303c0a3e613730303c203e633530303c0a3e393730303c203e623530303c0a3e383730303c203e613530303c0a3e373730303c203e393530303c0a3e36;
0x3e306130303c203e393930303c0a3e653730303c203e303630303c0a3e643730303c203e663530303c0a3e633730303c203e653530303c0a3e623730303c203e;
0x203e653830303c0a3e346130303c203e316130303c0a3e336130303c203e333830303c0a3e326130303c203e323830303c0a3e316130303c203e353930303c0a;
0x30303c0a3e376130303c203e343830303c0a3e366130303c203e646230303c0a7261686366626e69676562203030310a726168636662646e650a3e356130303c;
0x6130303c203e363930303c0a3e626130303c203e373930303c0a3e616130303c203e303930303c0a3e396130303c203e383830303c0a3e386130303c203e6138;
0x643830303c0a3e306230303c203e313830303c0a3e666130303c203e356230303c0a3e656130303c203e373830303c0a3e646130303c203e346330303c0a3e63;
0x3e356230303c203e663830303c0a3e346230303c203e393830303c0a3e336230303c203e386330303c0a3e326230303c203e376330303c0a3e316230303c203e;
0x203e313930303c0a3e396230303c203e366330303c0a3e386230303c203e396230303c0a3e376230303c203e326130303c0a3e366230303c203e353830303c0a;
0x3c0a3e656230303c203e626330303c0a3e646230303c203e396330303c0a3e636230303c203e616330303c0a3e626230303c203e383930303c0a3e616230303c;
0x303c203e623930303c0a3e326330303c203e336130303c0a3e316330303c203e356130303c0a3e306330303c203e613930303c0a3e666230303c203e34393030;
0x30303c0a3e376330303c203e333630303c0a3e366330303c203e623830303c0a3e356330303c203e323630303c0a3e346330303c203e313630303c0a3e336330;
0x6330303c203e626130303c0a3e626330303c203e366130303c0a3e616330303c203e346130303c0a3e396330303c203e343630303c0a3e386330303c203e3761;
0x353630303c0a3e306430303c203e656230303c0a3e666330303c203e616130303c0a3e656330303c203e396130303c0a3e646330303c203e386130303c0a3e63;
0x3e356430303c203e633930303c0a3e346430303c203e646130303c0a3e336430303c203e636130303c0a3e326430303c203e656130303c0a3e316430303c203e;
0x203e666130303c0a3e396430303c203e316230303c0a3e386430303c203e633830303c0a3e376430303c203e356330303c0a3e366430303c203e363630303c0a;
0x3c0a3e656430303c203e326330303c0a3e646430303c203e306330303c0a3e636430303c203e373630303c0a3e626430303c203e306230303c0a3e616430303c;
0x303c203e633630303c0a3e326530303c203e613630303c0a3e316530303c203e383630303c0a3e306530303c203e393630303c0a3e666430303c203e36383030;
0x30303c0a3e376530303c203e653630303c0a3e366530303c203e323930303c0a3e356530303c203e643630303c0a3e346530303c203e623630303c0a3e336530;
0x6530303c203e343730303c0a3e626530303c203e323730303c0a3e616530303c203e313730303c0a3e396530303c203e663630303c0a3e386530303c203e3037;
0x373730303c0a3e306630303c203e666230303c0a3e666530303c203e363730303c0a3e656530303c203e353730303c0a3e646530303c203e333730303c0a3e63;
0x3e356630303c203e633730303c0a3e346630303c203e613730303c0a3e336630303c203e383730303c0a3e326630303c203e393730303c0a3e316630303c203e;
0x203e643730303c0a3e396630303c203e653730303c0a3e386630303c203e333930303c0a3e376630303c203e663930303c0a3e366630303c203e623730303c0a;
0x3c0a3e656630303c203e336330303c0a3e646630303c203e316330303c0a3e636630303c203e303830303c0a3e626630303c203e663730303c0a3e616630303c;
0x303c203e306430303c0a3e333531303c203e666330303c0a3e323531303c203e656330303c0a3e313331303c203e326230303c0a3e666630303c203e30613030;
0x30303c0a3e396332303c203e356230303c0a3e376332303c203e636230303c0a3e366332303c203e336230303c0a3e323931303c203e316430303c0a3e383731;
0xa3e616432303c203e386230303c0a7261686366626e696765622031380a726168636662646e650a3e396432303c203e376230303c0a3e386432303c203e3662;
0x3c203e353131303c0a3e343933303c203e326430303c0a3e646432303c203e616230303c0a3e636432303c203e346230303c0a3e626432303c203e626230303c;
0x303c0a3e306333303c203e346430303c0a3e636233303c203e663830303c0a3e396133303c203e336430303c0a3e376133303c203e323131303c0a3e35613330;
0x30323c203e616630303c0a3e353030323c203e396630303c0a3e343030323c203e386630303c0a3e333030323c203e376630303c0a3e323030323c203e366630;
0x3031303c0a3e633030323c203e666630303c0a3e623030323c203e646630303c0a3e613030323c203e636630303c0a3e393030323c203e626630303c0a3e3630;
0x383130323c203e643930303c0a3e343130323c203e366430303c0a3e333130323c203e356430303c0a3e303130323c203e663030303c0a3e643030323c203e30;
0x3e616430303c0a3e643130323c203e396430303c0a3e633130323c203e386430303c0a3e613130323c203e376430303c0a3e393130323c203e653930303c0a3e;
0xa3e363230323c203e656430303c0a3e323230323c203e646430303c0a3e313230323c203e636430303c0a3e303230323c203e626430303c0a3e653130323c20;
0x3c203e336530303c0a3e343430323c203e326530303c0a3e613330323c203e316530303c0a3e393330323c203e306530303c0a3e303330323c203e666430303c;
0x303c0a3e663032323c203e356530303c0a3e363032323c203e326430303c0a3e323032323c203e346530303c0a3e363231323c203e336430303c0a3e32323132;
0x32323c203e386530303c0a3e613132323c203e376530303c0a3e393132323c203e326130303c0a3e323132323c203e346330303c0a3e313132323c203e366530;
0x6530303c0a3e343632323c203e626530303c0a3e303632323c203e616530303c0a3e383432323c203e646530303c0a3e623232323c203e396530303c0a3e6531;
0x373030333c203e623031303c0a3e303030333c203e656630303c0a3e616335323c203e656530303c0a3e326632323c203e646530303c0a3e353632323c203e63;
0x3e323031303c0a3e643565343c203e393031303c0a3e393065343c203e333031303c0a3e333065343c203e373031303c0a3e303065343c203e313031303c0a3e;
0xa3e313433353c203e613031303c0a3e643631353c203e363031303c0a3e623631353c203e383031303c0a3e343965343c203e353031303c0a3e633865343c20;
0x3c203e333131303c0a3e383237363c203e663031303c0a3e663137353c203e313131303c0a3e626436353c203e343031303c0a3e376436353c203e633031303c;
0x303c0a3e363265373c203e373131303c0a3e623630373c203e643031303c0a3e343363363c203e653031303c0a3e623661363c203e343131303c0a3e61326136;
0x30663c203e306630303c0a3e303030663c203e666530303c0a3e316431393c203e303131303c0a3e356265373c203e363131303c0a3e313365373c203e383131;
0x657272756320656d614e70614d430a70616d63646e650a726168636662646e650a3e666665663c203e356630303c0a3e323030663c203e316630303c0a3e3130;
0x626f20302031310a6a626f646e650a6d6165727473646e650a646e650a646e650a706f7020656372756f736572656e696665642070614d432f2074636964746e;
0x302030312065646f63696e556f542f206d6568412f20746e6f46657361422f2030657079542f20657079746275532f20746e6f462f20657079542f203c3c0a6a;
0x79746275532f20746e6f462f20657079542f203c3c5b2073746e6f46746e61646e65637365442f20482d797469746e6564492f20676e69646f636e452f205220;
0x6441282079727473696765522f203c3c206f666e496d65747379534449432f206d6568412f20746e6f46657361422f203265707954746e6f464449432f206570;
0x522030203920726f7470697263736544746e6f462f203e3e203020746e656d656c707075532f2029797469746e6564492820676e69726564724f2f202965626f;
0x30303031203030303120303030312030303031203030303120303030312030303031203030303120303030312030303031203020303030315b20305b20572f20;
0x30303120303030312030303031203030303120303030312030303031203030303120303030312030303031203030303120303030312030303031203030303120;
0x30312030303031203030303120303030312030303031203030303120303030312030303031203030303120303030312030303031203030303120303030312030;
0x31203030303120303030312030303031203030303120303030312030303031203030303120303030312030303031203030303120303030312030303031203030;
0x20303030312030303031203030303120303030312030303031203030303120303030312030303031203030303120303030312030303031203030303120303030;
0x30303031203030303120303030312030303031203030303120303030312030303031203030303120303030312030303031203030303120303030312030303031;
0x30303120303030312030303031203030303120303030312030303031203030303120303030312030303031203030303120303030312030303031203030303120;
0x30312030303031203030303120303030312030303031203030303120303030312030303031203030303120303030312030303031203030303120303030312030;
0x31203030303120303030312030303031203030303120303030312030303031203030303120303030312030303031203030303120303030312030303031203030;
0x20303030312030303031203030303120303030312030303031203030303120303030312030303031203030303120303030312030303031203030303120303030;
0x30303031203030303120303030312030303031203030303120303030312030303031203030303120303030312030303031203030303120303030312030303031;
0x30303120303030312030303031203030303120303030312030303031203030303120303030312030303031203030303120303030312030303031203030303120;
0x30312030303031203030303120303030312030303031203030303120303030312030303031203030303120303030312030303031203030303120303030312030;
0x31203030303120303030312030303031203030303120303030312030303031203030303120303030312030303031203030303120303030312030303031203030;
0x20303030312030303031203030303120303030312030303031203030303120303030312030303031203030303120303030312030303031203030303120303030;
0x30303031203030303120303030312030303031203030303120303030312030303031203030303120303030312030303031203030303120303030312030303031;
0x30303120303030312030303031203030303120303030312030303031203030303120303030312030303031203030303120303030312030303031203030303120;
0x30312030303031203030303120303030312030303031203030303120303030312030303031203030303120303030312030303031203030303120303030312030;
0x31203030303120303030312030303031203030303120303030312030303031203030303120303030312030303031203030303120303030312030303031203030;
0x30303120303030312030203020303030312030203030312030303220373631203035322033333320303030312030303520302030303031203030303120303030;
0x30312030303031203030303120303030312030303031203030303120303030312030303031203030303120303030312030303031203030303120303030312030;
0xa6a626f646e650a3e3e205d3e3e205d5d3030303120303030312030303031203030303120303030312030303031203030303120303030312030303031203030;
0x4f2000030080000a00000001000a6d61657274730a3e3e203434383436206874676e654c2f20343438343620316874676e654c2f203c3c0a6a626f2030203231;
0x6836000000ac000000d395071164616568a8da00000409000043aa2c6566796c6714010000cc050000ff11770170616d63600000002801000046614169322f53;
0x6e20000000080100005d0145017078616d24020000e0060000293aad0361636f6c440400008801000099610a7d78746d6824000000e40000006e07990b616568;
0xd500000000810d9ed400000000e8030300f53c0f5fc7929a4000000200000001002c13000020ea00006181e6a974736f7074060000ace3000038c1149a656d61;
0x10000010011010000000000000000000000000000010062070b00080076070000dbfe2d0400000100000000000000020006000000fc03620780ff0800f343e7;
0x402050b020000420132005e01000058028a024b00000058028a02000005009001490304000000000000000000000000000000000001000000000033005c0111;
0x5e00580200002000000020031802000000000000000025012d040000dbfe2d04ffff00004001474f4f47200000000000000000000002030000000402020405;
0x24200ea026f009d024d00c002580028026300b50258000d036f00f401630024026f00c802370076024200c6026300b502000004010000040100000401000000;
0x26300590337008a024200c90258004d02580020032c005e025800810242002f036200ed024d00d302420082023700db0258000d03420039032c00d6034d0072;
0x25200ac023700cc024200fb014d005f022c0048026f0074024200370221001603420039032c0053021600eb02420058024200c6026f0001024200fb016f009d;
0x32c0096026f008d0237003302420041023700a30242003c026f009d024200da024200fb014200c60258009e0263006c026f005d0242003e024200c1026f0082;
0x34d005f0237003302210009036f0020025800f0024200da027a00ee02210082026f00cf023700f2024d001e034200ec034200f302420004032c006002210018;
0x44d00d1043b0027044d005f024d005f02210004036f00b6034200010337008a020b0067036f009b036f007b036f00bf026100c3036500240337003002210019;
0x2320020026e0008023200f30250000c0332004e022300d0023700fa023700fa024200fa024c000d03210023032100230321001603210016034200e104420066;
0x23200a9033200bd02320051033200fa04320065036e00ee026e00620350007a035000c5026e003f022800f902320056022c00a0026f0009033200030350001a;
0x4500062025000d8026e004a066e00820550009f053200b404320011056e0007030800b403500035033200bd036e0098036e0007035000e00432001203320020;
0x550002303500016036e00980350000a056e008b045000b2025000b4046e00c4026e006d026e002b045000c4045000ac033200de035000310564009302320004;
0x4500038026e00ee026e0033045000e80342003903320076075000700750007007500038026e009f01500038023200510432004d033200190732007f0532001b;
0x23200b7022c00aa03420008033200d7033200af04320007056e001d0464003c046e005f04320062066e00ce03320047056400c4033200410450000604500092;
0x332006f056e00bb03320089045000af02320057023200cb033200aa0432001b0432009703320051054d00ce033200bf0232004d033200000332000b03320083;
0x3ff008403ff0084034f018403ff0084034f0184039f0184030f000c029600c001960072013200ef03320064043200410332009c0350005805500068056e00c3;
0x3ce0084035a018403ce008403000184034d0084036500840365008403650084036500840365008403270184032701840327018403ff008403af008403af0084;
0x37e0084036400840336008403ae008403ae0084037e0084037e0084037e0084030e0184037e0084036400840379008403f1008403f1008403ce008403ce0084;
0x64001604640025026400b20264003a0264003a026400460264006603640098016400500336008403ae008403ae0084037e0084037e0084037e0084030e0184;
0xffffa00020000d0000000200020008000a000000380004005c0000000a00030024000000010003005c000000040000002400000003000000040000;
0xd0000000d0000000100000000000000000000000e00000000000000b800000000000c0000000000000000000000010064ffe3fff5ff0100ffffa00020000d;
0x2b0000003a0001002800010011000000260001000d000100050000000b0001000000010004000000a0000000a0000000030000002000000020000000020000;
0x7010100d800000002010100000101005d000000fa000100800001004f0000005d00010050000100400000004d0001003f0001003e0000003d0001003c0001;
0x490040104bc03890353030103de0263021802f001490137010b01c50073003000150015001500150015000000080100003f01010037010100db000000330101;
0xd9d0d810d4a0d0b0de70c990c500c390cce0b940b690b440b0c0bbc0a5a0aef09d709940953093509f4087d0809089d0768073007e506a3062c06a2054505ef;
0x184d18d9174017ec16b9165116df157f154a15da146814e41386134f13cf126312da115211e1108d1054102010e10f970f5e0f190fde0ec10e500e360e060ed6;
0x26be251725dd248824ff23b8238d234923d022b12270222922d4215321c32082202c20e51f8c1f931e9c1d731c8a1b2d1bed1aab1a7c1a271aae194e19c61870;
0x33f132a2322532ec318d316731f1303c301530732f162f992e3b2e6f2ddb2c732c492c2c2cc52b312bbf2a4b2acf295729a6286128fe278b27192799267d260f;
0x400d40853f9a3ebb3d803d2e3de93cd53c603cbe3b873b703a3639fa38d9389d3843381f38ef3761372037cb365936ec358e35dc34a2343934f033ac335d331d;
0x4d834d4c4dbc4c084cba4b334bdd4a884a384afd499a490e49e4487148d04710479a464846cb453f45da447144b84352437b421e42bf418141d440a2405c4032;
0x58f756f75516553e548c53fa528c5240520e52d051905158512651fc50d950be50aa509c5063502950f54fc84fa24f824f684f544f474f2d4f174f0b4f564ecc;
0x2f90100005e000200546d0a6de66cca6cb66c806c0f6ce46b866b4f6b6f69c5673a66dc64ac63bc62066284613561895f0c5ea75c6c5b575a7f59d958635819;
0x23335211533112315231123112335230100000f00200352020000630001000064023336fdca02cbfe35013365fe9b015e2111213721112113000007000300ca;
0x2726262317021e23153317163233363633352337023e3300002a0023001c002a03840200004200030000c0c0d601d72102dffdd74a0146630146468e468f4652;
0xbcbe54100e3001070f07953617ce17361ada041c13b3fe141c05470419271b223922573330552338221a291b0442272621070606072626330706221307060621;
0x151627262223153336361707060607173737023e01000036002a033f02000037000100303b1c3619c3483c3c48e40256c45d5ec35650bebf543f597171593f53;
0x30d1a1009353b0a0346030b3b3409101a0d030a12136c4142121f16037201070614153335352626331716161737272726263717163235232306063734112311;
0x123f20ffff223c13217141a71afc2c24110302013f0101263e1201eefe3e2601013f01020311242cfc1aa72c544211b00101024602011806291a42416c13120a;
0x553422202b24040123052e112111250706062223263435023e270706061415163233023e0511211133041e320100002d0022000a002003700200006f00030000;
0x15140d10211b09240f2b2f15243017210f78200315fe2d464f462d2003161c1a20324e3a6801f3fe091e22100e13171c0927102319332215302d0f2b010ffe42;
0x451c5b6546a20d580133070606220317231533172726071716323336341123112327010000190013002503e201000063000200263d4744340a76015efd62091a;
0x4646fdb2013311331123112301000007002003b20100006f000100004d56225901553fc101053e0704839909021efe5e84019a011e372a700c555d1a141a0b20;
0x17021e17333737023e3317021e17372737270707140727262627230707060623272626270100006d0057003a003503b502f7ff58000300b4fe20036bfe9501fd;
0x16152726222323060635373636373636130706060706232726262726260717161607060615213527262637363601070706062735262627071707173737023e33;
0xfe2a0c1404030304093e28133e310b140f0204031216082a342907130f01040313190a313e13283e09090304120c2a3e300b11030402150b2ed8011716161716;
0x1d010e301c61791c441515451d75e7010514120f270d0620136e1320060c2710151105b72240202908040417141f4322412f5e38264a208201204a26385f2e7b;
0x2a150d1e1622543e204f70352346163f3f16462335704f30fe5f1b310e010f2c1f3f0bd82a1f6d1740380d0e3a3f166f70143f3a0f0e393e176d1f2ad80b3f3d;
0x11231133112303112311213311230121352101000013000f000b0007000300200352020000630005000a18100e210306010202010603210d13170931013e5721;
0x1115031e1415030e01000033001a002a03e60100005800020000630158fd0e01f2fe0e01f2fe0e017afe3fe102464646468f46a901464657feef0111fe520233;
0x3c4b102c29192019173d39df0a272d291b1f2d2d1f461f2e2e1f2637340d3a0117161415020e141516163727263435023e3435022e1337033e3435032e341123;
0x10000040d0f0e181b2218262f0b3c0416140c1a1e261715211402abfe1d2a21222a1f212a1f1f282086017afe2937261e1f141b2422302715032b2c182118;
0x717161415020e1415162327263435363634352626071716141506061415162327263435032e0717021e1415162317161415060601000058002b037e02f6ff4d;
0x590505100f131a401810100f065705050916241b401821160a064807050804670237363435262621070614151616372726343536362327263435023e34352626;
0x1f3051252a5e64332225192f164673696c3f1f3d6664734b222528451c2e3711200303070104820105030a0546040c0607440505131913151a3c190e131a1306;
0x30020032e0200006f0004000f362715301a1a2e152934110b0d3e321b4225192f162c524e4d272246251f243a29264a4d532e2225192f162f65632a265432;
0x2f6ff420003000082821efe21011ffe81c02003e0fc2003cafe3601cafe3601cafe36014341fe2e021521350121112111213521171121110100000f000b0007;
0xb41d120101141e42010717372117372701370327022e3736361327030706062726260307131716160706060317133736361716160100002c00280024003303a8;
0x27160124effe2b320c132d25eafe2416012c230102262e2302293e299afd293e29d8013bb41217120b0e211ead3baf1f140101141ab53bb21c24090d2218b43b;
0x352626231716161415020e141516323336361521010000230020033b0200004d00010000dd0cdede0cdd5bfe2416011b221810132e2e0b0124f1fe2f26010226;
0x37442e3890462f685e21223d3d41243946120e64da02ee01300e3825201e222e22302b52212e18222e2241401b2f0e58fe3b0221112707062223263435023e34;
0x47521c30162c07062223262634112311231123112311231123112311331533352115151632333636130000220025037e0300002c00010002010d1f242a1a2237;
0x1f0019001300e702f7023300420005000406153b375f0275fe8b0175fe8b0175fe8b0136fe8989956f5707041a0312281c1d2512467f468a438243c5434f01;
0x406945076d02365f7e48487d5f36365f7d48487e5f36423517021e212337023e133307020e271527022e25022e2223020e1415021e3233023e341300002b0025;
0x2f6ff58000300f908466c3f416c4607c7fe3f694608f6f607456a40697d5f36365f7d48487d5f36365f7d488d0140684207cffef507446a4040f00842673f40;
0x6062735262627071707173737023e3317021e17333737023e3317021e17372737270707140727262627230707060623272626270100005e005a003a003503b5;
0x190a313e13283e09090304120c2a3e300b11030402150b2ed8013335230135232306062737363627070607060623272626272607171616072726222315170707;
0x1801621e3c08022b4e2443353d050c0304040c043e3a41244c2e010e3a20555b2a0c1404030304093e28133e310b140f0204031216082a342907130f01040313;
0xc2570301053f1e5f1b310e010f2c1f3f0bd82a1f6d1740380d0e3a3f166f70143f3a0f0e393e176d1f2ad80b3f3d1d010e301c61791c441515451d75e7014646;
0x60627372707060603333521153303152107060617370100003e003200250029038e020000370003009a37fe3f08010356c26d15af8c0d2e17172f0a8db01569;
0x1c10180d037c322c2a08955fdafe5f9357010e3b23315f130115021e132313373636341326343536323316161415062227070614151616323336343526262223;
0x1218690b1e0a1e37243e3221331c08070372312d410bec013f3f1efe3f0a2823326d7a0205080768fb67070805fc21140e12251a1b106a03051a3223353d2738;
0x3233041e25021e3233023e3435032e27032e2223030e07020e140100003c001e002a034002f6ff420002000c2f35169bfe660116352e0c50fd341c0f140f201a;
0x3f060a09090b07070d0b090803ccfe2e4b592b2b5a4d2f1f2e3213060d0f161e151a20131009153531204002271716141506062223262634353636073337033e;
0xb4a2c3242212142322e480bc9aee4874114144187e4ae164f371c1c374f322a422f1b036f975e31121e56a689041c30432a560207232838562d2d54362f2209;
0x20e1415163233363217021e3727022e373632331614150622173336343526262223020e37023e2707020e23062201000042003e002e037b02f6ff4d000200c9;
0x1c401218124d350b150a033b6d501b455b2f024453211b26281902374c22351e2039412c063654352340653e0609140af6013523151726343536363435231515;
0x620001009999dc0f170f161f1a25250e13121c182b2d01559d75183c1761864c0a1f171f1c1a3b3d342632180e1306477e5f1a381d789950017501402d251c;
0x142303112311032335262627263435023e173233363627232634353636270706141516160706061415021e07173737023e343315031e01000061002b038b0200;
0x241f0d364218120919120d140a0f3e50212916070408152a210e0137273736363435022e37363435262607171614150622071716323336171616141506060706;
0x1fa14354311c0c0c1c3253438a023e0d0b130d121809121740380d1f252822090a12040c0e05100d04040204049f469804060204050d11040c0d04120a081f2b;
0x93c041c16181533010203124d64371d4021112c133601790185fed6fe13310e193c1d37664c11030201331518161c043c093e2e18250c1d5b6630295f5f281c;
0x33171632333636270703071716162311231115060622232634353636343526260100004f004600250303030000420002001f192b605f2830675a1d0d25172e3e;
0x3244040707734610251d131a181931263c0223262633171716160127072306063727070706061737363607173737363207173717161415020e14151632333636;
0xd1213212b22223a0ae0013a3e037b120405068afe380608180810380810240d130814080f36090f0f0a113608111410161038372f4006040a46492451200b2d;
0x100596c7a1c1b1446010a4701013f0a50040a05380408023b084c020147084c031910141e1d21162b2e4d3c3c4d06083b065e0109172519e201f7fd536129;
0x1545c0fe2021141914161c460237363435022e343536361337363617070614111516163727263411230107061415021e1415060601000029002a035502000058;
0x20342a1a2219150c0d2b221d0124351a01196b4967fe432e054404161ab10242fe2d3b1b141c17160f152214f80228201419141f18cb191c0a030505393c0822;
0x1a4828b6060627263411231115021e0723020e1737023e071415031e372726263435361737273736323316163727262213000031002503270200002c00010000;
0x1516273a2818053b041c2c1c120f56364f140e26112f1e24d60141162e1c460a2427031f303a2c252d3d2c15062031371718183928038b1f900c2a171f351025;
0x15333521151516163233363435262622112311213533352301000025001b002a03de0200005800020000211a1d64533d01c3fe37604611040b22243c212a1706;
0x2901a7fe3fc02048491941313044232102dffd993f49011c0f101b2036dffd3e62a8010120351f31382b452746fffe3cc0ba0206222326343533161401331123;
0x163fe9d0163fef50117021e17372737363435231515161607173737363603213521152135210100001e00070003002003f50100005800030000172c4020262b;
0x100004e00290387020000420001000008242a125a1fe40c2117d5d816200ce41f5a1d400cbbfe3fc03fe102010e13092f3e7a0101460101773e2e0f1a02d09d;
0x35363233161607061415231533352335352626373632331614150606141516163723263435363634352622230606273736363411231115161607272622230614;
0x3c3c15162229252e12020233ae35020213302429221617393c08261415154e3c20361003010301460401031232223c5177021616141506221737363435262634;
0x1d241e121721110c1f180d543f3f541121120c112117121e241d2926053a0f0d111a262131411317021116201fb1014ffe30290c021613413161021515152508;
0x3736341123111516070706062726262707170717373736361716161737272726263736363737363601000048002b035302000037000100261a110d0f3a052629;
0x12010111122633614a411b0b0905070f0c273225171c0804130e1413180246011716161717161607060607173737363417161617372737270707060627262627;
0x352681871f3c19190b0e1b133c243722210707211c2624340bb801021611151013030c1b152432270e1301080d1f414a61332711110101151546010146034518;
0x4c00330020032d03000063000300000b3721281e1f050d201f35243c162202021e193e1f87812636162902023028840c21163401c9fe291a812c2d01032619;
0x1506061737363435022e343536361703331333033313331333033313330323230606222737363637023e2307030e27032e2317021e1716072326262201000050;
0x4a32441848134113491844314a3f5b132e260501101c120f241f0a4708181c1f0f0f21201b0948092127111b1e01052632151502333523070706061415021e14;
0x25fedb0125fedb0125fe1502020304051a1e194d4e1b1841433a1210394442191a4f511d2c090403020b017878db393d17192019292c104b3c1821182c2b2640;
0x333636341333112301112311010000290018000700030020032e0200006f0004003fab0214211519261d17090f1005370b252619221a150c0f0d0429ebfddb01;
0x2003203a2626341b01440815152019192015150844011b3426263a20214343cafe462e023526262223020e333536363233161415150622232626342317161632;
0x1533153335333523353335231123112301000013002003b9010000420001001d3c28253c200e1f162a1958192a161f0e203c25283c1dc0fe2003e0fc2003e0fc;
0x21e15151616072726262707173711270717250000270020002a039e01f5ff6f00020000893fe8e83f893f3101cffe310199999946989898984699b901331523;
0x281a403b8f24ed02248f3bbf3a2d2b3c0a283308030405275036304e2f0504030833286329e94646e92975013636152726341337363617070614150706061415;
0x3633352337023e2307020e23113335232100002d0026002a038402000042000200003504bf032f290d011a2708030d46362404274833334424023436450e0307;
0x17381a6f4f5a19281b0547041b2a1b273922573330552338271b2b1d0446041b2719554ce1d1012626330706220333112327022e2317021e2315331716323336;
0x1521152115331123152311232100000d002003000200004200010000483c3c48a5021efe4ebdc15550bebf543f597171593f55bcbc5456c2bc4de2013f3817d2;
0x2737363435032e333523153317161607020e2735262627022e3335232100004d002503a9020000160001005c3f6488014ae201320188fe78014646ec46ba0121;
0xc0e081d9a34191d070b2a290a0302040b202613189aa9023317021e0706061415161632333636270706222326263435023e37043e3335231533070606070606;
0x5656223f3f5ac06a06121206031b2714367b79313f361b33280d263c24173f3d193e1e1116301e20210c1c3f342f5f57462e052d9a2808412f06130702030207;
0x130000420037002c0020002a03270200002c00040040a0a34711283a291e3b270c0c3c080b151d0d1d272015132f466895683f3f7f9c2e061105030e1e0b1449;
0x7061415162326342526263316141506223734070622232634353632331614372622272626373634112311151616070606230614151616171632333636373634;
0x1131a1a1301383193022e2105070d232d43010605202f30200c39271f202626201f27b74d4e0a2811020246020312280a4d4f4f4f0d3a1919380e504e2c3632;
0x2b0027001300e702f7023300420006001f0d1f14261a1d22141f0e1f22231c1729293737292937372930380f180513220dbd0142fe0f201205180f38303138;
0x365f7d48487e5f364233352317333523033335231733352337020e2223022e3435023e3233021e1437022e2223020e1415021e3233023e34130000370033002f;
0x3939664d2d2d4d6639487d5f36365f7d48487d5f36365f7d488d017676f07676f07676f07676d82b4c653939644c2b2b4c643939654c2b46365f7e48487d5f36;
0x1123031521352335022e2223020e2223262627071717163233023e3233161614130000240020001d03be020000210002003f3f3ff9fe3f3f3f0d664d2d2d4d66;
0x2c0222fd3f3f3e4b260d181e1814192c2f33191d181e18143732de024646c59d023e1a2d381e1f3c37301418291c312e3d1e3b261b31323922172716a533;
0x3f3fc0c03f2102eb52465364394332ae0501374334aef0333523112311230733153335333523053315333533352313000017000f0007002003f5010000420003;
0x22224620affea101431cfe530207062223263435363627070614151632333636252111331121210000190005002003530200006f000200003fb5014bfeabc0c0;
0x3411231115161607020e143335023e070614010000260020031c0200002c0001001e17140d11251c281d4327242b231fd61ffd20031e25110e131b1c2c1d2a2e;
0x174fe10180b074063783f427d570b112f2160024603022b39210e461532533e02024602023b533418461c423702034601333535262617021e143335032e3736;
0x1415062223260717163233363435022e371716323335232306062737023e3300004d002703120200004d00010000c021311008365161323f79633f070b1a1189;
0x333d192512020b3324605e1c380d0215272815950706222326262317021e07272622231533333636170706061415161632333627070622232626343536323316;
0x341a2f210605020b3f0602051063b78e1c2c0e0b29224519272515030c40235154263b0902122619183c371f2a0b0a201323230b25121223171e0d0e08071507;
0x11333523112311230100000b002003b90100004200010000c7b7b6c88eb662120502063f0d03050b2e462e24432a09370205212d1445412c2a1426033302033b;
0x331614150606173736343526222306062737363411231115161601000031002a03950200003700010000b4fe4c013f95016bfe9501994698984699b901331133;
0x250212412540551b26341f102f341b491d0a1d491a3430101f34271a5540233d1604020246020284012726222306141516163727263435363233161633373632;
0x61737033e17031e13000031002b035e020000520001001c205650224a2c272932162c3832303131382c163229273541225056221b030a3016d6012afe153208;
0x462820101302050203071d3d402827390933403d120f3c43380a8a27262613270707061415160727262627263411231115060607060627373435262627071307;
0xf7d1e270a130a020b271d3c7c363201cffe367d3c1d270b020a130a271e7d0ff7fe382c2b0b436378403d7764450c2b03132814403d1d070302050213102028;
0x14646fcfe4646824646828b01464675fe40023335230533352317333523272115331123112101000013000f000b0007002003400200006f00040015341c0901;
0x152327022e0717031e372726263311331133071737033e2707020e2335333523352315232500002b0020037f02f6ff4200010000c0c0c0c0c03fff20031efee2;
0xb224623b4fe4c018c084aaaa996350a1c7fa95bc53f91919149680e1e1805460b1f201b083f040a055e4667133f081b201e0c4406181e0f7148484649d10133;
0x2b2e25084f0133112315231533152315330727022e3435033e3411231115030e1415041e01000026001a002a03f101000042000200c55ba97f1c0a3597acaa48;
0x200006f0002008601483f753f3e2a33232118141e1d25372986017afe20291f1f2b212331242122162a03464675757575820e3537261f2d2c1f461f2d2d1f1c;
0x25000021002a031402f5ff630001008160023f1efe41c0fe2003f3fe0d01466afe5001f3fe4396016f213521132115211121352311211300000d000900200305;
0x40304f6fe08431a430b1501020603430b0b0b0b43030502ebfe0c431afa01272107061415161621372707173721171616372726343536362707060621270717;
0x11232100001b00170013000f000b00070003002003460200005800070000503e7e3e3a70375307fe076c1c371a0a5ac36666d0670a1b371c6f07fefa080b0104;
0x3fd53f3f3fd53f3f3fff200391915d019191a3fe91915d019191a3fe91915d019191894646720133352305333523053335230533352305333523053335230733;
0x31191a312e2820160447041724313e4a2a27463d33261904423311233707040e2223052e2317041e3233053e33000021001d002a038402000042000200003f3f;
0x15231521352335333523112311230100000f002003b901000042000100bc01644ba7a6957443447496a6a64a4db2b6a6834c4a7fa4b5b6524646fa041520292e;
0x3717163233363435042e342315040e1415163233363601000052004100300025039802000042000300813f3f813f2102dffd2102999977019898984699b90133;
0x3e2831283e463e284f4e2a351389010622232634353526263317031e1405263435043e3307061415150622370706141506062223262607171632333634352626;
0x24373034415a3e586b281e150225323a300502040a2d3833225bfe252234372e0a040105323a7604060a1e1d0d22220b2028144a410604040e372b4e4f283e47;
0x200006f0002004d4331c51c4915192d313a4b31864d39314b3a312d19144a1cc53143050a2619363a1604063e07045e671c230a021c2a6b58405b42332f3524;
0x29002a03fa01f6ff42000100816002dffd2102dffd2102e0fc2003b1fe4f0181468843d8016f2135211111231123112311231121113300000f000b00200347;
0x5531404c33505a50332b57443d59380e3d1a4c3b413d33505a50334226222306061737363233161415040e141516163233023e2707062223263435043e343700;
0x17021e0706060100002c0020002c036102f6ff3700020061726018624941482e453a384254393253333a572d134b47493030493b38405137be6f605175233e22;
0x7cb7783a4b357058040f0b040b050b090d242c1d4236401c011b3b1f430233352311333521153311230337023e342315020e0706062737363435262627022e07;
0x19002a031502000042000200003f03013f3ffdfe16fe5cb5bfda827eceb35504120d02102621175a2c428e85361a6ee8db59162d17f402b23a60fefe623886;
0x48621f921c19191b0e35341e1d18172f2e0e2715139d012313231533352313230323272726343536322723061415161607061415163237233435363201000025;
0x11272622231533333636010000320024002703fc01000037000200a0fd3f3f6002a0fd05011f11111c3f3f251c320a14301722333f2d141a90024b6c31fe306b;
0x2f0e2b2502113c15605e213a08460d3d2351541f3c0f3e0126263435363233161415060622030706141516163233363634352626371716323335232306061123;
0x200006f000500212d1445444544142e2001010d594324432a2d44234154100302073f0702be0143fe02063f0703ea0116072012122007151523242c19322733;
0x2c431b35492ff32a023335231533352325361527263405333523113333161614150706061415021e15331135022e22232100002900250021001b00170020032a;
0x36a0200002c000100003fd53f3d0cc5052e2bb73f20021b48415e05264734354222049c3d024e5c2c0db9b9b9b92101572631dffeb9b9f336391628492e2b48;
0x80304061b1894360b01280b0136951718070402078686468dfb01331515161623272626270701330127070706062337363435333523112311230100001f002e;
0x36363233161407213523112311230100002500160007002003f70200002100030000aa517b15163e22d02788fe780127d2213e15137d51aa3f0b01f5fe0b018d;
0x2c803fe1021ffde1024742423e01440a1b18251d7bfe4742423e01440a1b18251d49da01cb46c97d023526222306063335363632331614213526222306063335;
0x307060623272626030713171616231521331614150614151616130000350031002d00290027030802f6ff2c0004004f5a52571832213f2c4f5a52571832213f;
0x465a010a0e0a28462d050b0655465608040135020407584556080c038331012b2c0a120870333523053335231733352305272634353634352626223736361327;
0x2000042000300008484848484b8162a1a1432103839150d261c92010b65fe23270710252097010b73fe2625093f1731132e1620351227034646fcfe46468246;
0x223736363337323316161715271706222326261716140127262223060607030e37363233031e171716163233363435022e1123110100004b002b0022002a03d8;
0xa1e12cb6bfd0b071b1e0125279dfe142215192c0f101510120c24281a1230343112a4012143331f1c25402846150137272726222306061716162727022e2726;
0x82b3e0c2720860102021825030a1d3c350201141b160210474d1e201f3745250842029efe62012e020313140b2219131405152438351f071a06040d062b0721;
0x331614150606141516163723263435363634370000650061004c002a03b102000042000300000c0d1220131706100b02041e1e050103121f0b1a030113980ab4;
0x3435363615331133372622230606352315272622230614151616141506221737363435262634353632331616150706061415021e3233023e3435022e35373632;
0xd2a11233513121b2408403516170f140d2812233f292e4b592b2b5a4d2f263e23142b0d13101211413408241b0d0e6615233513333517161415060622232626;
0xd080d0a0bf60c32472e324f371c1c374f322c48310bf60e0a0d080d202a1a2d27053a0f0d111a2621af6a6a411b2638562d2d5436291c416ae63622122b10ec;
0x500044003c0034001a002903aa030000420006005151a1fdbc0b442532422121423227430ec0d40141240d0b7d7a0b0a242621261a110d0f3a052b291a2a20;
0x3335231321132307272634353632272306141516160706141516323723343536322717161415062217333636343526263736343526220733141506220100005c;
0x15170c2d2c1419141428270c211111dd181515170c1e27141919161228270c211111640207020e2327022e03330107020e2327022e0333013335231321132305;
0x173b1b2a15182b080c31141d2b362611166e02040a09020402080b0438a7e301040a09020402080b0438a711fdfe476eb4fe6f481c02fe476eb4fe6f48201711;
0x1001a4b471312484c196e0192fe1a4b471312484c196e01a0fd3f6002a0fd3f3f6002a0fd10011a0e0f17363520182a0d1128141c313b26111602011a0e0f;
0x26373636373636342315020e07060623272626272626342315021e171616070606070622231533273315332733073335373736360100004b002003d10200004d;
0x2248172817071504040512081827174d23381f09160d1626120b1e238c3e05253f052c053f180c19049201171616171533273307332733073335232326262726;
0x18144d6337113012132f1135644d1518648145142a10204d25161bcd96969696bd2f183c17c901041e0a173e052d053e052b053e8c231b0b1424190d17092037;
0x1533070706062707170706071737373634173727373636373307061401000058002503bb020000370001001740142fbd96969696cd1b16274a21102a14448264;
0x2039a01151616231533070614333526263335233736343535262633171716160717371716161737272726263727072726262733352337363435231515161623;
0x45010160610202020255130309055608560103041545150408046308660102031233ce0202460401d033120301016a0866070915451504045308520409031456;
0x240f0b3f0b0d261b8b0b8a1b240d0c3f0d0f2514743f0b1c13d1d4111b0b3f7513260f0d3f0d1833890b8a1b260d0b3f0b0f25137d102e20a80104015e5c0102;
0xc6112323042e2223040e222311011121113333043e3233041e32130000250012002003600200006f00020000101a0b3f09220f0f22093f0b1c11c7202e107c14;
0x454c452b2b454c452ba2021ffd2003e0fc2b454c452b2b454c452b20030912120b0d182c25242d1b100f15130aae010ffe572028180f0f171414140c0b142621;
0xe1737033e3307030e1737033e33352327032e343536132703071415031e2327032e343536132703071415031e2301000041002a034002f6ff210001005efd2b;
0xf2102c80c2b312b0c3a0c2e342a088f0c2b312b0c3a0c2e342a085252051b242216095540560d23312a088f071d232015095540560d23312b09ca4002330703;
0x1421232e232121322b2e1e1421232e232121322b2e1e3f191f15151f1918244b010abafe31261f2b1e190d1c2015131d1918244b010abafe31261f2a1d19;
0x150606141516163727343536363435022e373634112311151616070606141516161415060100005a00560052004e004a004600420033002e03780200007a0008;
0x44604023e683e0e0e116d0233352305333523053335230533352315333523053335231717333727070706062327022e27033736343526263435363632331614;
0x2927161518170391915d019191a3fe91915d0191919191a3fe919183583e583c160f100304010f110515780c060e0e3155354f680e0f060d44110f0e3c663d01;
0xc13f3f3fe0a5a51d2b1d33140d29270a2adcfe0e210c172a2a18323d1c404b1a2b29150c240f181a14162528193e5630050c1f1563019afe141e0b052f573e18;
0x14150606070614151637273435363637363435052e07040e141516161716141506173734352626272634010000510020039802f6ff420001003f3f3fc13f3f3f;
0x122b2431110f112b2c29414a442f040630434a40282c2b110f1131242b1220185202033e37363617070614112315331533353335231135262637171616171616;
0x9060f3c3c36543f2c1b0e02020e1c2c3f53363c3c0f06090a0f1f1d3522201b050a232914011b28280e1f240a030204676746666604020307281c15392b1820;
0x440040003c003800140020039802000058000700003d2c1b060e1e0a0210421e7dfe3fc0c03f85011f3e10010a1f0b092d4a3229230a051b2022351d1f0f0a;
0x35230333352307333523173335230317031e3337033e1707061415161617031e2137033e3736343526262715040e2127022e342307060627022e2100004c0048;
0x3edc3e3ed6081d22200c240c23231d070304020302061314120664fe061215140602030205330e161b1b0a40020e222014431744190f2f2f11f1013335231733;
0xc9011333352c0c0c2e363311021a2e0f10291a40958e711c1c718f94401a2f0c102d18474cadb3aa933744bfdadf64305e1c123741203e3e6e3e3e373e3e6e3e;
0x1f3444a085306f023e352326263435023e112726340123020e1415021e07061415163233130000210010002003d30100006f0002000092929296fe9292929292;
0x2e03e802000021000500003d19013f214131334a2b055afd03574248021c3a593c3b4a280b17503e6a6e2003334d272d54353f623762670f013f7d693f2a3e;
0x231533352317333523170706062726262737033e3417333715041e0301270727022e34230707060623272626272315030e2707010100003e003a00360032001b;
0x2afe2e03e1e1e1e11ea5a58a1a1901011a17a20a1a1a160d5f2a600c1318190bbd4d0136290e1e19103d341915060404181c303b131f23102c36520196013335;
0x20030e020000370002003fb73fb93f93252a01022c20e11c5259533d0b85800d3c5157501d82fed601273a2b6e6c54123f1e2a161330213912556d6e2c3d27;
0x173733150706061415161607173737363617161607061415333535262637363617161617372737363435022e35333523112311232707171716160100004d003f;
0x3b142e211113313b1406050107180701073a0403081907010307143b310d0d202d14c1c1463c692b171f360e9401263435363632331616141506220307060607;
0x118d1245141f0a030701051c0e4e4e0e160c0106030b1a1845129113371c2537250a3c3f0b01f5fe6e3018211c0527011e161d0c0c1d161e207a0e361f172b6a;
0x333336361707060614151616323336363435022e01000047003c002e002703120200004d00030037281c2b19192c1c2836430104202118306f3b09263a261c3a;
0x54263a090314291c1d36273333121d29121101032e3307020e220326263435363233161415060622131716323335232306062737023e2117021e072726222315;
0xe02050b30452d24432a2d44232d432d0aec010b101812961018110d0618160720121220071515210b3324605e1c380d0215272815ccfe19272515030c402351;
0x2707173337271300001e000d0021030203000021000200001a447d64637d441b90fe212d1445444544142e200601020a3f0602051063b78e8eb662120502063f;
0xfd161f07072013573497973456022a2f1d1e302b141c24202b433546465001181804040418166130ac31ac305123042e0717031e323311230107060623272626;
0x1614051616070606173736363736363435022e2726260717161607060614010000330028001c002e03d801f6ff37000300002233372c093b062b393724200355;
0x6232c2e230b89352506070604282fd8fe4d34195d421b536e1d2b4d302f4a2b1d6c47233a5f19233d25a1010606272634353636171417060637363435262617;
0x3c302f6ff65000500003e1c033f2c2c3f043134393e021c401d183618053e2d40540f3d5b163c1a7950032a4a3332492a04568b21381c6e460a2b432ba10107;
0x5060617373636171632333636171616372726263736343526263736362707060627222306062726071716160706141516160100006200550049003d00310034;
0x2d361a32174f3c411f4e2d17211b143202363233161607020e272626170606272626373636171614070606272634353636171616170622232626373636171616;
0xc08103211113211080bb63111090e0c091034115f2e13122e0e112f0f102f11fcfe3f3031204120183a1f1f3919204120312c401a111b20152d4f1f411d4628;
0x143813103d29301c3c2213181913223c1c30283b1a1b45292e4c1d4caa5e1c5ba1462412118db41c5da84c1d4e2f29471b8802311112320b0a1c1d0b102f10d5;
0x6220100004a003a002a001a002a0360030000610004000b0b0b112a2a0f174419b82f12123413173f181234201c331313301f1f3613194017970d0e0d133715;
0x11333523353335131713173727371737270717072707170103372707273727071737170717371317262607171632333636171632333636270706222326262307;
0x182f08a2062a162d082b6bfe362f0731162f06a0062d162b072e382c350e41175647354c13114e35475617410e35303831064a06303979021533152315331133;
0x58b053c103b048c043b04a6fe5901053b058c053b103c058b053c05a4fe813228143c49292c2b2a493c14283230252530eb022d2d2d462e2e2e5d423b30082e;
0xfe464650023335231533352315333523053311230133112321000013000f000b00070003002003500200006f0005003c8a3ca2fe5e013c8a3ca0fd075901053c;
0x1e323523042e2235331133112111333533031e3201000040003c003800290020035a0300006f0004003fd53fd53fff2003e0fc2003b9b9b9b9b9b90701464665;
0x232b1d181f3027b3461c231d274135232b1d181f3126b346cbfd431c231d2741356801233533231523351123042e221533031e323723042e2235331133353303;
0x5ffd1c2b322b1c4027393927401c2b322b1cd88cfe5c27393927401c2b322b1cd88cfebc0244fd5c273939272003b3b3f9b3232b1d181f31261c231d274135f9;
0x17161607060723152135232727262637363637333521011123153311231521352311333523110100005800400028000f00070020032c0300006f000500cacaca;
0x56fe2f02c98383d5fe8383c92c033332361707060607070606232726262727262637173232132306062737363637373636331716161717161607272622013317;
0x100f0d14050404160e0f10160c02081a0e010e1808010a1410130c13040404160d0f10140a0108180ef3fe1f670a160612126523aa01226509100a0814076a1d;
0xdffe010103051111130c210808230d1011110503010121016f0b13060e146c3f3f6d0a1007071208723fa1fd20033f5efd3f3fa2023fe0fc20030e1a08020c16;
0x1415031e3233363405372707173727070100003b00370033002f002b001900070003002b035c03f6ff0b0008000002030814100f0d220c0c200f0f1014080302;
0x5b4a2d4633566c7336444733566c73364447dbfd822c8397832d83880237270717372707173727070137270705062223032e3435363233031e1437032e222306;
0x4a5c602b212a2d4a5c602b33726d5834513a33726d58344447a5822d8396822d83ff02832d8397832d8296832d828bfd822c837602261f295d5b4a2d261f295d;
0x1415021e2517161415020e141516163727263435023e3435022e01000054003b0018002b035202f5ff37000300832c8297832c8297832c82f5fe822d83112b2d;
0x2c1821183c4b102c29192019173d39450217161415020e141516163727263435023e3435022e012726263435023e352326263435023e2707020e1415021e0706;
0x26250b3c05100f09181d24151521140208022b2c1821183c4b102c29192019173d3906024d6a37334d272d533645764a0e2f6e623e2a3e1f35434a8556fcfd2b;
0x161a201526250b3c05100f09181d241515211402f3fd0f263c30343d19013f2141313943271043092338563c3b4a280b17503e47533216e6040d0f0c161a2015;
0x1133352123263435231515021e3211232707171732152306060717372117372727262235333637271300003a002e002a002a03a90200004200030000040d0f0c;
0xb7140d432d37b74146467534d461fe473e4319334c3337692b173f24133020172b6a31016a2b171f3014243f172b792323263435231515163233032311331323;
0x1800100008002003950300006f0003000017158f8f3f2c7efe0a01f6fe0a013f485c8f8f495b2e11f6fe6e30184205242118306f6f30182124054218300e02;
0x4045856ffe2003defe2201c0fe2a2407037f1901466a0304120d70fd3bf6018543d6fdfc95032123060627372117353311072726260537211711331121030100;
0x360111171616013736362707030e2327042e0717161611331523152135233533130000280023001e002003e302f8ff2100030000050403928c8c00ff01061e0d;
0x93e5d733d315e52422a0744040a0b59fee53f3fe5fc019709543a84fe3d55082501193117123672633e0204012c47575b2912172e17e28f63018edd82233736;
0x42e2317021e171616072726222315331533353335232306062737363637023e3300002c001d03120200004d000100006c9d2fc8fe3e012f9f7064010c0d0444;
0xe0502063fbdbd3f0602050d7e83366a591d0514191a170707161a1a140545030b110c1f2d19030c45234ec046bf5c1c3d0d02172c1d0c130e038107030e2223;
0x262223152135232306060333363435262207331614150622010000400033002f002b000d002a03120200004d000500003381836f44446f8381331e5a6732887d;
0x1c1404055dfe0703131d22262510030c452351c501631c3c0d4e374c4c37021c2f2f1c6501042e3307030e2227231533252315330737053e37211717051e0727;
0x474747300b47657473611f06082061727364460c0502063f3f0602fffe2f2b2b2f3513121212f402181d1e1b08ff091a1f1f19087e3e3e37013e3ea011262623;
0x37363637363617171415060617373636171716141506061737363435262627373636130000a400930087009f03ff0300003b000300365b7076343575705b363d;
0x3727022e23171616272622230606222306061415021e17021e323336070706141516163727343536363736361716163727263435363637171616372726343536;
0x223e0b613637363637323316160706222326263425262223061415163233363425262622233736362117330706062223032e2726263435023e37363632331616;
0x1b254632243d42543a18185819131d203a310d0f02110a030e0b390e0b060712030d0a390e0b0504070409100847070c0f3a0b0c051c070d12193a2019160f6c;
0x13fbfe1c13141c1c14131ca7011b301e07282504e2fe1dbc0f669a5d314b3a321825432a263d222839331f3b5d1321181e11043e021d14194023193f421c4e4f;
0xe0e120a100e20141d11220e0e0d040604060d083f0f100e22131c13220e1d071b13122d191e243c191d2c0d6502140a14020104060310131720050e1c0e081a;
0x701b2824090e131d1c1816080303110f230f1e4867562f2c86490b0e141325381d232d1f100b2b2d1f034f162b1d193d1b1e32250f1c0d020f0a0e24151c1222;
0x3e1716163736363233021e171616010000da00cf00c300b7003403b00400004d00040003050a050e2213070603090a0b1c1c13141c1c1403402959cf5f3fb1e6;
0x1415060617323336363435022e343536362322063736361716161415060617323336363435022e34353636230637363421172107060607020e2223052e343502;
0x230627222306061415051e07061415031e373634352626373636071415031e3736343526263736361716161415060617323336363435022e3435363623371716;
0x3f1b0e060276022726262223060617161617363233161415062726263407363233161415062726263437363435262627022e2317161607272622230606272622;
0x1a0b1d251d0914070d060104020e22180e161b11161a0b1d251d09141b140a0759fe1d4001081f181c4b565e3020535e5e544326131c0d2f4f2619201e150932;
0x471517130a09142c1e31536a747231050c212f2f0e21120f0c09110801212f2f0e21122b221121100e21170e161b1117190b1c261c0815100714280e161b1116;
0x1604163419030403020d0f404610b701050f19130d2517221e05ff0e111c190b152113c6120e1b1a0c152113281902030416281e4a1d2f0e030f3e28222b1842;
0x21140e140d0617130a151d0b141b14130c061c2501070e070c12100a0517140a151d0c131b14130c061d24063032043f2b88526271360f263f4d4e442e060818;
0x240f0521331d0a3f565f583f0b071108172c2617011c3a16141c0b0104020204162d2617011c3a162b2c041027190b11100a0517140a151d0c131a15130c071f;
0x9b008f008300340345040000420005000e1f1712160c1710551228151614071d1f0a1c0f28161712071d1f0af4352a0e1b12195a703a388131011b0f01052b;
0x2e34353636233736363421171616141506063736343526263307060607020e2223052e3435023e17161637363233161637363435022e22230606250000b300a6;
0x150627262634012622230627222306061415051e07061415031e373634352626373636071415031e373634352626373636171616141506061732333636343502;
0x544326131c0d2f4f260c22111c412001061b28280d1b14060c03363435022e2317031e0717161632333636272626053632331614150627262634073632331614;
0x2f0e21120f0c09110801212f2f0e21122b221121100e21170e161b11161a0b1c261c08151028270dc7fe1d1e090101201c151197081f181d4a565e3020535e5e;
0x101c7191d2e1a4a2c321807018e050f19130d2517221e050001130c1c190b152113c6130d1b1a0c152113cdfe471516140a09142c1e3052687372310507212f;
0x517140a151d0c131a15130c071f2187a64e054e9074271a1c080b4032317f4b2b88526271360f263f4d4e442e06081816041634190101121602150e151d1007;
0x1f0a1c0d26161712071d1f0a0f02240f0521331d0a3e565e57400d071108172c2617011c3a16141c0b0104020204162d2617011c3a162b2c041027190b11100a;
0x7020e2223052e3435023e171616010000b400a9009d0091003403c00400004200040000352a2e797e33569a7949052c0d201712160c1710b01026151614071d;
0x2626373636071415031e3736343526263736361716161415060617323336363435022e3435363623371737273736361737273736342315060627071707270717;
0x340736323316141506272626340336363233021e17161433363435022e2317161607272622230606272622230627222306061415051e07061415031e37363435;
0x100e921091070b049111930e0a410a0a951097159810971c4b575d3020535e5e544326131c0d2f4f269d03272626222306061716161736323316141506272626;
0xe030f3e28222b1842471517130a09142c1e31546b747130050c212f2f0e21120f0c09110801212f2f0e21122b221121100e21170e161b1117190b1c261c0815;
0x3811263f4d4e442e06081816041634190d01050f19130d2517221e05ff18071c190b152113c618081b1a0c152113ee201e1509323f1b0f0718191d2e1a4a1d2f;
0xb0104020204162d2617011c3a162b2c041027190b11100a0517140a151d0c131a15130c071f212d263d26162b13263d26404104043d33283d2954293d296070;
0x1d1f0a1c0d26161712071d1f0aa1010403020d0f414e07352a2e797e33388131011b0f01052b240f0521331d0a3f585f573f0a071108172c2617011c3a16141c;
0x3636011521352335022e2223020e2223262627071717163233023e32331616141300003d0020001d03be020000210002000e1f1712160c171055102615161407;
0x100915292c1b1c2b27150d17076afe9d023e1a2d381e1f3c37301418291c312e3d1e3b261b31323922172716a507030e2223042e2317021e1716163233023e37;
0x468e7f62393d6881893f225b6530717e33317d714a953622fd3f3f3e4b260d181e1814192c2f33191d181e18143732de0207141918170807151919150745040d;
0x15331533353335233533352335231523031521352335022e2223020e2223262627071717163233023e3233161614130000340020001d03be0200002100020000;
0x260d181e1814192c2f33191d181e18143732de02808080467f7f7f7f4680459d023e1a2d381e1f3c37301418291c312e3d1e3b261b31323922172716a5331523;
0x163233023e3736360323042e0717031e322507060627262627071733372713000038001a000c0021030203000021000300573f6b6b3f573fe1e103fe3f3f3e4b;
0x11141514110545040d1108192428201e2924180e1607be2a2f1d1e302b141c24202b433550011e150305141b6130ac31ac305107030e2223052e2317021e1716;
0x210002000046a29d804d3a627c868034225b65308aac5053ab854a95361ffd2233372c093b062b393724751b2004071d195734979734560207141918170806;
0x190a09111a6130ac31ac305123042e0717031e3233113335233533352335231523153315231533050706062726262707173337271300002d000c002103020300;
0x3002233372c093b062b3937246a013f573fe1e13f573ff5111f0f0d1818573497973456022a2f1d1e302b141c24202b4335467b7b7b7b467a7a7a7a500113;
0x262223060607030e37363233031e171516163233363435022e3537033e230706062223022e2317021e17161607272626010000630043003a002a03e20200004c;
0x41122424111128250c44030d150e0c2629010d33308c0137272726222306061716162727022e2726223736363337323316161715271706222326261716140127;
0x1405152438351f071906050c062a07210a1e12ce6efd0b071b1e0125279dfe142215192c0f101510120c143a181230343112a72141331f1c2540281f2d201608;
0xc2720860102021825030a1d3c350102141b160210474d1e201f37452508c9115670742e748b3d3c8a76205a612c262f1003040d0559012e020313140b221913;
0x233533352335231523153315231533150100005b003b0032002a03d8020000420003000c0d1220131706100b02041e1e050103121f0b1a030113980ab4082b3e;
0x26222306061716162727022e272622373636333732331616171306222326261716140127262223060607030e37363233031e171716163233363435022e113335;
0xc062a07210a1e12cb920b071b1e0125279dfe142215192c0f101510120c113b1a1230343112a4012143331f1c2540287b7b7b7b468484848415012735372727;
0xc2720860102021825030a1d3c350102141b160210474d1e201f3745250820013f573f4d4d3f573f4062016b2e020313140b2219131405152438351f07190605;
0x30e2223042e2317041e1523353335230100003e0034002a03bd02000037000200000a040c0d1220131706100b02041e1e050103121f0b1a030113befe082b3e;
0x221e191407430714191817080715191915074506131a1f2314fd3cc099020622232634353316140133112315333521151516163233363435022e3537043e2307;
0xa7fe3fc02048491941312e432501040b5077898939468e7f62393d6881893f33848b7b550b04993f49011c0f101b2036dffd3e62a8010120351f32372b442513;
0x352115151616323336343526262235333523353335233523152315331523153315213533352301000035002b002a03bd0200003700020000172c4020262b2901;
0x3f573fe1e13f573f6b993f49011c0f101b2036dffd3e62a8010120351f32372b46267f7f7f7f4680808080fffe3cc09902062223263435331614013311231533;
0x2337023e34353335211123112115331515031e2315211300002b00220019002003ad0200002300030000172c4020262b2901a7fe3fc02048491941313044236b;
0x3f7a0186fe3f3128403837203f20039c1e022731247e01243126031eb4500327302440defe46defe402431260350ae019133112327022e34251515030e231113;
0xe6a83a40783526262223112311151632333523353333161413000013002003e00100003200010000d8fe24423d391b31311b393d42242801d8fe203738402831;
0x1115040e1415151632333634353536323316141515163233363401000061003403bc0200005000010067763112022afd1c2e3f905e71200330583ba5462b26db;
0x3632331614151516323336343535262223173333161415150622232634353526222306141515062223263435352622230614151506222326343535043e341123;
0x3abb020e0d0b0e2c2a2b2b2b2b0602050b0e0e0b0d0e2b2b2a2c0e0b0d0e2b2b2a2c0e0b0d0e23383e38234622353c35222c2a2b2b0e0d0b0e2c2a2b2b300135;
0x8a3a3f3a122c8c2c12122c2c3a3f3f3a2c2c12122c2c3a3f3f3a2c2c12122c632f39241c2032293601c9fe1d22181b2c493c613b3e3f3a2c2b13132b2c3b3e3f;
0x17021e1407152135132721130706063521111737353736363435022e34353636370000290025001c0018001500270385020000320005002b13132b2c3b3e3f3a;
0xc00106321adbb7fddede7a011f2d171b21151610171503c53501962b25041a1d1596cbfe9b8e1b01ca3e33063ffee0e138401a1821181d194d35211517060635;
0x3a5b09242b27195301333535043e341123112323060614333536323307030e140100001c002003d60100006e000100f1f14b15029015181214100a9b9b9efe88;
0x15230100002c00270022001d0018002003ee01ecff3200050000462f3e2a232736299a017dfe317667715e16202332503edb023c18272b2718465f3b58304640;
0x6f093b2b46eda73555313c653d3d653c325435a7a7330123373636173517161607152726263333070606033311233537363634352626222306061415021e1533;
0xfc03ca01ecff50000800002b3f0a74740a3e2c3f710a3e292a3e0a37fe140173083b5b373d623939623d375b3b08b296e1026f093d29462b3c08b5293c09b4;
0x272626132626353335233523353736343526262223060614151616152315331507061415161607173337273736341300005d00580054004f004a0046003c002a;
0x2d4a385b5b1f27221b556b2b6b551b21be2337363617351716071527262633330706061335331507062223263435323314073737363633171616170707060623;
0x7c7c650d3a28ac02440725183e370e831824088244072419043d3715141415292960161408030403081614141509030403091388261eb23979384a2d4b2d2d4b;
0x3946082519192508fcfe6565d31f1f1b3a3ad314111406061413121314120606121214013c0b063f9f2b0b583b2d492a2a492d3b580bca3f060b3c2c283a0d65;
0x3617021e3327022e07060622353333363617021e3327022e0706062211231107060614151632333601000039002f002003d10200003200020019270848481236;
0x22323361a151e33542f511729523c09470a527640182a32260e2f511729523c09470a527640182a3226462e4f3040351d1b2402263435023e15072217333336;
0x13000f0020039a0200006f000500001a1a20312108a20c7528130422342032523401121a0f6128130422342032523401121a0f02027ffe09334c2e2d410a9b;
0x2c562d982d562e46012c562d981bfe2b0246ac46ad46e501b5372707053727070737270705372707132115211123112311231123112311211300001f001b0017;
0x710068005e004d003c00380034002e00ac03740200002c0008002d572ea12d572eec2d572ea12d572eb3fe3f2003dffd2102dffd2102a0fd60022d562e4601;
0x7020e1723373617351716073636152334273307061415163233153335333537363435022e37363627022e333521153307060614171616070606141516160100;
0x2906072b3d232ecbfe30274329072a1d1b352330261e02020e1117021e25033e1127022e01231527022e3736361716161415060625231527263435023e171616;
0x232e2f131941370888012f13190f01071007162e1f0c0a97fe2f0a0c212f16070e07020e1a137a362b0b460c2c84221335a5910e183635044181263023351a1c;
0x380c0438538b8c543874230b67204e0c2c1a272e32d907043629234438111b4326295b531f3f3f235d5b1d26431b11384424293604cf023541191941350a8efe;
0x1300660324020000320005003d290a860117505c2a1f4542371277fe0a293d2ae5fe3c0b373f1a0408050b2735221012043f420411112336260b0507031941;
0x1105352315213523150527262633352323060627222315330706063337363617161607331523153315333533352335333523352315230100003800340030002c;
0x3b591515593b6f253f61613f253f4d4d6202461c01469afe469d0105271e2c4a0f1e0f1e1e4a2d1f270546053623243505b2313131463131313146317f011123;
0x3e3435262223060633373632331415020e1415161637363633170100004c0045002003d102f5ff280002001401ecfeb6c6c6c6c6683e5d1f3f0404083f1f5d3e;
0x621221b1821184b620e1f02043b6b01171614150606013523112311232735373636343526263335233727070706062327262627071723153311072726343502;
0x3542491f302619211a221b2635051d3b0c642003171a161b5e017b46623b2038223325232d413e100e1b0204021a0f0e3e3f2b4139201f18211837272e4a0838;
0xf000b004803ef0100006e00020000103729223c11cdfe3f1301edfe70390c384c2b3760193f7a1f1d1a380c0c361d1b1e7a3f5bfe6f040f100f1d22291b2a;
0x22230100005d004e003f0033002003750200005000040084b0fe8db548036ffe87eafd2003f5f5f5f54646f546ef012335330335331533112311233523110100;
0x171614150606212726343536362707061415021e173335233523152335231523073333043e17031e3233352323042e37033e2307030e27032e2317031e07030e;
0x273c2a8f1d243225242d20202d232631241d18131d1b1f2c201e413c300d48153a3b320e0c343d3a124a10313b3f1d202c1f1b1d13186b023736363435262607;
0x1348554d323f243d494b20216e848336509174470504477492503c87806920204b493d24e1021b2b192c251715111719d3fe1917111517262b192b1b30f32a3c;
0x4b00470043003f002f00210020031603f6ff50000700000627351a28470f39072813172805052817132807390f47281a352706e63f636363633f324d554813;
0x50606222326263435363632331616140336323316161415062223262634071616323336363435022e37363435022e2223020e1415021e32333607140100004f;
0x406b3f3f6b40426b3f4e201c1e36221b1c1f39234438582e28381e2f4d2b1f2430546f3f3f6e542f2f546e3f2e2d038e01333523073335231733352307333523;
0x41416c42426c41dffe23293a1b1725273a1d335735253a212e5036072761363f6f533030536f3f3f6f53300e0c0d63027676dc7676dc7676dc767694013f6b42;
0x16160537112311072711231117072127371123110727112311171300004b00470039002b0017000b002703f40200006e000600003f3f3fe93f3f3f076d42426d;
0x2a1f463a2e6e022e3a461f2a469ba821352113333634352622073316141506222323263435363227230614151632012726261123110706063337363615333517;
0x96fe3e31313e6a01a5fe202c0c01e5fea627032201defee4514545510329363629a12936362903514545510a01134e3246324e134b0d25164616250c8dfe9b46;
0x16002003800200006e0003003fcafe3c31313a351d1a1a1b1b1a1a1d353a31313c16fe3f4308f80108fe08433f202207494907222007a61b01f4fe2c205b01;
0x3e343526222306061737363233161415020e1415163233363607020e112111272626220111231523352315233523113337353636323316161417130000450021;
0x20030715160c16242f243d271c3512310819110c16242f2435272039129d563806860105385430070146a046a04632462d432222422d45a00706222326343502;
0x3000032000500001014100f0a1319261d252920211f0f150f0e0b1519231923311f2265315b3e3502cbfd3e5b31f1fe200367676767e0fc2b2f4b2a2a4b2f2b;
0x450a7f0302353526222315333316141503112311211121153311253317372723053317163233363623070622232626230100002b001f001b0015000f002d0333;
0x3f0a0d525efeb90247fdb9023f86fd09772b8b48353f6350334142327a022b264833140c9d469501d8fee2eefd486f2e83623001531b5c3c4c6b14450d403938;
0x33e17163233023e3435262607070606222326263435333521153315151627222306141516160100007f0073006700500044001403cc040000320005005e1d2d;
0xe27343536323316141315021e3233023e07020e2223032e34353313020e273435363233161425023e1716160706061415161637023e17161607061415161637;
0x612302412210f34330d09140a1a2e12210d2b2d22053d92565aa5804b07082f1f68935e78a75626b4fe220f0c0c293912219904020e27343536323316141702;
0x783d3d032a32163a1cec011321150b191c0718571321150c1b1b081748376da56f558f6e2103416a84477cb9815024784d1321150c1b1b0718cafe2a2c11050b;
0x4173a0fd1f1d07121716210b08a01421130b140a0113261f163a1c011c2a18091208072923163a1c01152229151c1f3c6b935721391a1c48794a65ac6d483535;
0x21e13000051004d004900460035001c0027031f03f6ff32000600001f1d07141615210b08af1f1d07121716210b0886015aa07a46375f3b3f6e522e3c67818b;
0x233317071737333523353335211533152307363435022e250507060614151616272626222323020e052726263435023e01011716161415020e17373636323333;
0x1e1e5d330d19120301020112190d3235255f642a3f2a646024a802303111082225adfeacfe262108103131272854664355315360425823353317233533072733;
0xefef14424d2545683e161c0c0c1c1604305b4a18134a52203401ccfe20524a131a49593141101e130b1c1a270326266426264b2a53c423512e25a92e1e1ebefe;
0x706141727262634353636010117161415020e01010000520045003b0021001100bb038b02ecff32000500848484e0274b2b269c3584353584f06845254d4214;
0x2c2d2d015e0106063736363233021e272207263435363233141522173634352635363427022e35231507020e1516071415163237161607273736343526263717;
0xfebb031409050e0e050510100614161c1f1f1b3a3a353d0c0109171a0d3e0d18170a010e3e348a2627d7d82726272bdddc2b27a22d2d0e3038d4fed3fe38300f;
0x141529293738291b15030d055265370ba8a60b3969550904161b2938e35c28d6d6285c40376427dbdb276437c023423e1c3a59302701d9fe30593a1c3e4223da;
0x1415161607272622232306062737363435022e151716141506062707170706060100005100450039004c037703000032000300000203494a1917494d068c1514;
0x201c3c30222c1a152a2ad0091007c702151506222315333336343533151516323335232326343501373632333316163527262637270727263435363635070606;
0x340436073f2b20300f2b29d9040a0507030c146f84262b352b26846f140cadfe2a7f3d193d7f2a071009d02a29151b2b23313b1c201f931f44221923431f931f;
0x2003ee0100003200010000e00e093f2e1cecec1c2e3f090ee0b4fc1a1b1b1a45050a04d9292b0f30202b3f073604344a242b4a1797060505069817492b244a;
0x363435022e23070606141516323523263435023e152315331507070606141516163527263435023e371115062223153333363411171716161415060613000055;
0x2b3b233217841732233b2b0d19182310696957162f1f444d242d1e280f260c145166262b260f281e2d24c337363435022e273533352335171616141506221533;
0x2b311a3029370c160c1e1e0dca3f1a451229301d3035023701181711221f0c1fdcfe0e093f2e1c30011f0b20221117180153024d441f2f16576969112218190d;
0x15021e070606071737373636373636343535023e1300006a0036002d003103e002f4ff320003000235301d302912451a3fca0d1e1e0c160c3729301a312b1212;
0x232634353632331616372726222306061415163233033e323316141506222326260317070606272626373707020e27353335231533150727022e071716161415;
0x11122509a849072c18192b084aa2142418022c3cbe3c2b011925142f0b1c152532150731223d213c3c3d0715372a151c0bb91716323336363435262223030e22;
0x30314d3710183014243b23224d220f3751353019241a0b1f010e40201c342041473a5848454d322a1f1c11122509320e40201c342041473b5847454d322a1f1c;
0x20182d1f2d381d2b2a1d1a1116171514152b20182d1f2d381d2b2a1d1a1116171514f7fe7a222e11112d227b7a11243124472d3f3f2e4725312411330b1a2419;
0x1515030e27022e34352315151616031737373634353536363333033e3435211515031e3233171614151506060100004a004600210033039004f6ff500003002b;
0x323e4320680f153c1520240f0f2420153c15103e213c463d100ca62f5c503d23c0fb233e505b2fa70c0f3528f0021533350523042e2107030e22233736343523;
0x493e44452f3b261e12121e263b2f45443e4916a7fe3b23285c25381f250d365c747e3c28283c7e745c360d241f371d3a18d40246f5fe20433e311e01b203011d;
0x3898961fe9f01ad46ac462b0246ad61012111212723152335231121112315232500000f000b002003990200006e000200009d9de12e4d5e642d2d645e4d2e16;
0x4646ea015cfea4014644fdbc026e231107173717372705231133012111213721112113000014000b000700030020032a0300006e000400001902c88989e0fc20;
0x2637363623070606271123110706272701000042003b00280020038b0300003200030083fe902c89892c98fea2025efda2023fe0fc2003468a2d84842d92c5fe;
0x7c114710756d08461a18437364033636152726341311070614151616151516323335232326341101171616070717371707060633373636113311171616332726;
0x1d9a6565a4306eeb8e80d46504b50149fe0b19074b89011f19191f383d35353d2b264833140c00fd172809014d14811d1e2f11451a3c2046213c194515412877;
0x4b00430037002b003403e502000050000700001a0564051913ce019cfe06382b2b39079e1c2e3f090eca0244fe0e1a030522383303338b4c6a931de6fe1c01;
0x323316140506222326343536323316140117031e27222306061415161632333636343526330706141516163233363634352622230637033e33000063005b0053;
0x321d1e311e0b8d05071e321d1e311e402d11112d412f1e0a50272626210706060527262621070606052726262107060607272626210706060706222326343536;
0x206033dfe040904c80104090484fe070c068401060d07d21d32151b0115311da11d16151e1e15161d50011d16151e1e15161ddbfd091e2d422e11111d321e1e;
0xb40e3c2b2b3c0e851e1e16161d1d16161e1e16161d1d16c70256b3a6872a051d321e1e311d1d311e1b160b180e1e311d1d311e2d40062a85a5b459040503f701;
0x163527262223060601000085007e0076006a0062004c003a00280022001c00100098036403000008000b00001426131326148c1327131327138c122714142712;
0x3633171616170707060623272626253737363633171616170707060623272626251733372723051733372723012737323233161607020e273736361733371716;
0x257e4342792599022726210706060527262621070606071406233526343533071414072326263307062237033e342115031e1415161632333336363401373736;
0x14150903040309134502161309030403081614141509030403091345fd6b2b6b6b2bf0016b2b6b6b2be7fe330e1c0d0d190d17140602e616371f622b621f3715;
0x161cee020c069801020a05c4fe07110944010911060e01e601e90199202107db07212195131b1b13d4fd131b1b13143c3a603a3c14e2fd161408030403081614;
0x4cf9fe14111306061313121314120606121215141113060613131213141206061212147c7c7d7d7c7c7d99fe5a02010124240e04270d14078d8d07140d451c16;
0x380031002a000b002003990200006e00050000232a1626118c142613132614611d0e0e1d0f13050905d02e29292efb3c363d543c3c543d363c294c7c49497c;
0x60635171614373636152726340716162337363217232726262223020e23353736363435022e3521150706061415021e0323152335231121112315232500003f;
0x492b024e025757e0fc20035757382a2a38db3a28283a433807ca083825cb27052e472a2a472e05302d482b2b482d9f012c492b2b492cad46ac462b0246ad6101;
0x363233021e070100004f002f00e802df04f6ff320002003d02d0013c2b243d01d0023d29e12f24242f53283f25253f2899022b492c2c482b017076012b482c2c;
0x34352626371716163233023e1707061415161607272626220101270727263435363617370107170706062223022e372701173717161415060627070137273736;
0x2729220634879246470112012a65191d1d19652aeefe2d492a748240547c632d482deefe2a651a1c1c1a652a12012d482d637c544082742a497101020e273736;
0x225f2b2b5d225f290401294424331c1d34234329fcfe295f225d2b2b5f225f29fcfe294423331d1b332445bf028c723206222826230532728c5d469287340523;
0x22232426071716161415020e0100003d00230020038204f6ff3200020000223d28062a773939752c04283d221e3d2c042c753939772a052d3b1edffe0401295f;
0x34262c20708c9848adf6fe442d26341c1d35248204060637363435262617163233023e070614151616272626220537243233031e372726263435023e2707020e;
0x302e637f554284752a301c281a0c3436302a758442557f632ef002da501e22222251dc854a9d943d2222231e3d939c4908fe440a01ad48988c6f202d24351d1c;
0x1e141515030e1415163233043e3233041e3213000083004100e1024f052b00500002001d203a8c5e4a9d45211e0b1c18459d4a5e8c3a181a0bab36340c1a281c;
0x1e1415062223042e2223040e2223263435033e343535032e3435363233041e3233043e3213363435032e343535033e3435262223040e2223042e222306141503;
0x20153e331f2d2c1f1f2d2c1f333628312b385a916f6f915b382b312836331f2c2d1f1f2d2c1f333628312b385b916f6f915a382b3128b9161415030e14151503;
0x1f27411b2b2f2b1b1b2b2f2b1be102161f2d2c1f1f2d2c1f16151520283e659c72729c663e28201515161f2c2d1f1f2d2c1f16151520283e669c72729c653e28;
0x412f142f412d201c1112171b2b302b1b1b2b302b1b88fd41271f29222533271327342522291f27411b2a302a1b1b2a302a1b41271f2922253427132733252229;
0x123113301112111332501000011000d00090005003502140500006e0004001712111c202d412f142f412d201c1112171b2b312b1b1b2b312b1b1712111c202d;
0x59004d004100d003dc0500006e0005000501effea0b10149feb701bcfe8301cbfdb283015a5aa026fdda02e0fc5a5a06045afbc72d03200123113303051121;
0x36323316143726262107061415161632333636343526263535043e3411211115051e2137043e3411211115041e14150706141516163233363634010000870070;
0x100a232c2d4b2d2d4b2d9204220635042e3411331115040e1427262221220635042e3411331115040e1427262205062223263435363233161405062223263435;
0x60c078b043c2b2a3d3d2a2b3cdcfb3c2b2a3d3d2a2b3c3e1814330315182d4b2d2d4b2d2c240a1011100acbfe090f120f0b0187fc010b0f120f09cbfe0a1011;
0x182d29292d1810162b289a0166fe292c16101a332f1415482c2e492b2b492e2e030c07090d0f0d09a9080e0f0d09060c07d5fb0c07090d0f0d09a9080e0f0d09;
0x100d1c1d5c01a4fe1d1c0d1021433b0101cc3d3d2b2b3d3d2b2b3d3d2b2b3d3d2b2139151539202e492b2b492e2d4815132f331a10162c299a0166fe282b1610;
0x31e141506070622232626343536363233021e1415030e140100005a00200388022f0050000100023b4321100d1c1d5c01a4fe1d1c0d1021433b0101023b4321;
0x44583214263737265001333535033e343526262223060614151616323336363435262622353636323316161415030e1415333535033e343526262223020e1415;
0x495c39241f1769024626373726508751567a402652431736282333190c23232b270b2637372646263737261f473d2e391f0b182423180112200d2d3214285949;
0x684e537239426a3d284b310e28281c1705101f141e28102b3f302b2f1dd6d414262b35493123432b1b292b1019160601060b050306052130162a5034253c461f;
0x78787878bec201be6e6e6e6ebe3efe12023315231533112315331523152135233533352311333523353335212100001b0020031202000050000100a1111e2a43;
0x363435032e373435022e2223020e1415021e3233363607141415021e1300004200320022001203a003f6ff32000300009d3feefe3f753f3f753f12013f9d3fbe;
0x3031a48462f16010d375866301930546f3f3f6e542f2f546e3f3e6d29025899634a06062223262634353636323316161417363633021e1415060627022e3405;
0xf253f2f0e0f1205111f3528cb3f3042573319053a3f3f6f533030536f3f3f6f53302e27080f0849673a0612033f6b42406b3f3f6b40426b3f2f030217484831;
0x6111716140137323316161107062223262615173233023e3435022e2223060605000023001c0020034302f6ff64000200006d42426d41416c42426c41ee1a0c;
0x8d2e1f022e8c554c01060f0d91fd0e0e020341063f6f935555936e3e0403034b3e3e4b67fe1f1f254720204725101f0f23245594703f3f709455142310430206;
0x371121111733152327112311133315333533352335333523352315232711333521153311072335231523153315230100005f003b002003e10400005000020000;
0x6f6f4613743877fd387413466f6f6fe10407062223263435023e343526222306061737363233161415020e141516323336362533153335331311231107233533;
0x9203013f3ffdfe928a8a3f4356020715160c16242f243d271c3512310819110c16242f24352720391250fd6f465ae646be3c319c8d019c313cbe46e65a466f6f;
0x320002001014100f0a1319261d262820211f0f15100d0b1519231922321f221a8b8b0b011e01f6fee043bd1701e9febd43e00a01e2fef5fe8b8b3f433f8a8a;
0x3f392ca3d527331317072735373521151715072737270717371707173717071737270727371707270717372737173727371737271300002f002c003a03ac0300;
0x382da22c383ab4b23c382ca22d383c5d2c5e3f382da2960153a795393fc4929efe8ac241392da32c3941612d603a392ca42d3839bcb73c382da42c393c5e2d5f;
0x1737173727213523112311231123112311231123112311230100001a002a035c0300005000010000567cfe393fc0ab913f3f91b3ba41392da22d38405d2c5c3b;
0x2c0028003703740400005000020000932c89892c933f2c02d4fd2c02d4fd2c02d4fd2c02d4fd2c0266018d2d84852c8d5e014646784678467846465c032107;
0x50014e262b460c143946a6fd4639140c2e0421352101151516323311211527071737270735211133333634352315150622233523152135231523232634352100;
0x1b0017003503bd0300006e00070000dd0901bf1d2de4fe8d3e319292313e8d1c012d1dbfb30d0acacacaca0a0db3a6fd5a02c1fc2b264e50013e319292313e;
0xb046a68b0223353305233533052135211323353305233533052135210127352115071737353315071737112111173727353315170100002f002b00270023001f;
0x9e2c2c9e2bb54069be2ad461029ffdd42abe6940b5d902464683fd4646f10155feab018c464683fd4646f10155feab01e8fe93ab019333a646b033c3b1fcc333;
0x3435262637343526262317161415020e15331616141506061717031e323311212100002c00190020031d0200006e00020000a8a8a8a8a89afe7f7f7f7f7f78fe;
0xe231c023f28452a2f4c113f03212d2d1d20031b1a0c174a2e23294a3b20110d621f270a1b1a2a442737320b2d3b2c2c3a2b4c51fe1d02112726262726263736;
0x16163727262637023e1135262221230614111716160706060100002d001d003403560200006e000200005efd010707253e131d5531446a1928361a29120b2e1d;
0x581f0a030c14e3140c1c4f5b2c0d180c4c15452b2e5628332d5a2c2e5f57202b26f3fe262b1326122946155602353632333316141507020e2726260337363617;
0x3300004400400039003200260020036404000050000500000e09090ef60e445e32091107d9fe20583126542f2a325a2533604a141e011c2e2e1c1ffe0d1c0e31;
0x1121171716141506062127263435363601262726262107060607060601150706061415021e07062223153333023e171616323335232326263736363435022e35;
0x9e9afd66024623301d360efd361d302366011581a02ded022ea0810a140a87fe29412754c5ab204028abac2b463d1f1f3d462bacab274120a8c656264229e121;
0x50000200006201990941261e4e2a2a4e1e26410970fe041e442222441e02080472029e06304a29487c692d18283f1e2c14142c1e3f28182a6a7d492a493006;
0x842d92e651415170fe52415262022315232734343536363317161415230533150717371737273533353526263335211533070614010000260016003403620200;
0x1d00190015002a034f0400006e000b00007d070e086eda5353da6e1d3f42902c89892c983a5874d2593f3f59d274de01469c014e5044504e9dd4fee68a2d84;
0x163233361716323336361737273736270706060523153315231533152315330307030e1415041e3527022e37023e1300007c007800740070006c005d00590021;
0x6adf23153315231533152315331523153325023e17161415020e222726340523153301071707060637023e2307030e27032e2317161607061415161637033e17;
0xb2a353415470e23146f620f0e2a574b370b192f13131606210d407637342c20332e2d1a371c0a01454545454545713685846f43436f8485366aad74161674ad;
0x242b2c2b13132b2c2b240d421c32280e0e28321ce001454545454545454565fc334a2203032032371702039b0345459afe2c4529552d1c383212491634322a0c;
0x18103f3f20012c3f0b0b012b6e763843765b380403385c76432c582b1166601c3311030b1d392f232a1401011214312d1e171d37111b0bf53f2a3f2a3f82010d;
0x331521353335211533110100003d003900350031002d002900250021001d00190015002003ba04000050000b003f2c3f2a3f2a3f3c311b06120f0e29311b090c;
0x468ca2fe8cc6fd8c16fe8c2e04233533172335330523353317233533052335330123353305231133012135211723353305233533173521153311233533352115;
0x8bfe41bd3d3d3d7c7c7c3b01f5f0f0f5f5f0f0d0fd200346468c4646f40146468c464668fc4646520346463afd46463a020cfef4018c46463afd464646f401d2;
0x7020e27022e2317021e23060635231507060711211113211121130000490045003b000700030020032a0300006e000500727272727272727272dafd41417501;
0x1544183a3c1b24451f3c13102830024644fdbc026e35231513062223263435323314253736360714151632333634352617161635272635231527262237023e23;
0x3b6038467d510705065366070dfea2025efde102e0fc20033c45151414152929e6fe1c4c29093d2c2b3c08294b1c10133c1f45251b3d3b173f152c270c0b232a;
0x330706222326263301000053002a03c602000050000100008888d3fe1f1f1b3a3a05111806171d374242371c18061811450d076653060507527d45395e3b0403;
0x35232726262317161623153317161623153317161623153317163233363633352337363633352337363335233736362307060623153307062315330706062315;
0x8054252060b0751682257333055236a54070d0653440b0741350b0d0346030e0a7c71080a6e5f060c06604917331a1a331747a7012327262633352327262633;
0x7d413f162b163f162c153f597171593f152c163f2b2c3f407c39397c403f2c2b3f162d143f3c48483c60025d070c065d6c0509046f7a0b0d0447030d0b354004;
0x2e343536362117140111231515041e1716163233023e37033e34352127262622210000380033001d002003d30200005000030000152c163f162b163f407d3837;
0x12837310813282c322e0f082d34260101f80103edfd2d1e2e3228091020342e30341e0f0829322f1faafe0130573b69023517161605030e0706222326262702;
0x1e90400003200040000d602686cb9705635060d07080d0735556f410c220b18218d01ebfe783b6b5b452a050a0d07060d0c062c455a693a78657a36363d0159;
0x444c20204c444635fd46390435211525363615272634050606351716142507061415161632213336363435262622112315213523210000280024001d001600e0;
0x500003200050000dddd461d016c011b19191b016c011d196c01393121311b1b3121212f1b08018585cb0279fc3a3c4333430432443c3a33fc654b204d435703;
0x6062722230606272223060607112111232726262205231133363634352626223521150706141516161521331614152113000062005b00540023001a00a8024d;
0x4445fc654b4b65e8013a41bb017f0606351716142536361527263405373632331614150606373736323316141506373736323316141506063737363435262223;
0x59fb33433c3a7d01081f1e0c1401033a0d20180c14033a0b201a0c1401013d01013727172b111b2e172a111b2e2c480a872f03ce04305539390263444c20204c;
0x3211e1412120a031f201412040904040506052a351011211010203c42583501d6fd5d6b2df519011b302021311b7878013b31303a01635e7126a8023a3c4432;
0x6222326263736323316160101272622230617161632333636011300001a000e00fa02e7066600320002001d016c011b19191b016c011d193519261412040a0e;
0x4c021b032801320001000f433f0c07413e77fe9601576526487647190f6ffefa023d22484b101845243a53065105f6fa146e6858690137674a326529f70447;
0x300007631457631453f3e316f3e316f9701690176314a4376314a837f46316f4646316f90fe1b032117372733173727333523372707233727072101000013;
0x36171616070606232726260335033e3317021e141735032e21352137363627032e07030e17161623153307020e1415210100003b002e0022002003ed03e2ff32;
0x493c143c20033e29293e0d232d063c072e221c212c24033904242c204d212e26057a0287fd072e26072a393c191b3e382807262f077a7b05262e22bb01320236;
0x22001c002003e8010000500003005025255029296c3d3d6c29e4fd153641502f2f5041361503143c494f263f376623224b46350d0e36454a222366373f264f;
0x201f0d5aad0c10061628282c19192b28261506110da55afa95013307020e031127022e353315231515021e17021e3233033e3736363435233533352321000028;
0x6141516161513000011000a0020034f0100006e0002004a9c8c31a30151fe318fa24dbb7c0b205051227293522021529170245050220b7c3f560c1d1e0f460e;
0x2e22210000280022001c002003e8010000500003005f2290fe2260367afe200390278d56568c287c20032e27262f9b4646555645b43636112726341311231507;
0xd1f200e551e1d0c563f2c28281606100cad5afa5aa50d11061526282b191b012337023e17021e231127030e07060614153315231533352335333535022e2702;
0x9b00970092008d008a0082006c005900470001032007f6ff50001000004da28f313d8c9c4aa3018320529372225150200b7c3f3f7c0b22505024709152215a;
0x2634353636270706061415021e0706061415021e37272634353636052133363634352626222311211117163233363634250000d900d400d000cb00c600b300a1;
0x3715232537023e072722222306061415020e173736343536322527222223060614150606173736343536320126262223020e0735231507352315073523150527;
0x32252722222306061415060617373634353632053316162335053537152507273537170727353705250705222635330706222517333736363317333736363317;
0x2942240a2c242922430274023d653c3c653d53c4fe1744272d4b2d9601233736361735171607152726263333070606252722222306061415020e173736343536;
0x120e01c6030703172d1e060d0a1f2319190eddfe030703172d1e130f2423191a0d03052d4b2d2c492e02504663465946d9fe2229242c0a24422920351f1f3520;
0x30703172d1e130f2423191a0d650538500a9f0bfe2de4fe2b2e59a9323163a9fd090141d40307039f0a503896fc3b310e1f02043b3b0e1f02043b128dcdfe06;
0x4c2b2f543805430b452c343d0c9139623d3d62398ffe1c011c212b492e96440824183e370e831824088244072419cefc030703172d1e060d0a1f2319190ecffe;
0x77b01112d2a100e0909271124221a12500115312a191a0e2a103823191dae01492a28462b143c4d194354164c5e490c3d342c450b430538542f2b4c350b0a36;
0x909271124221a12500115312a191a0e2a103823191d614434784f530baa464c4d07161957532e199542735a017532449d641d3b0c5f1d3b0c640b4b4c0d221d;
0x250000c200af009d00970093008f008a00850082007a0065005c004900370001032007130050000e00001927084848123639460825191925089701112d2a100e;
0x150606173736343536320107352315073523150735231505272634353636270706061415021e0706061415021e37272634353636052133363634352626222335;
0x2533070622232226251733373636331733373636331737152325373636051133151516323315252722222306061415020e173736343536322527222223060614;
0x3b012722222306061415020e17373634353632252722222306061415060617373634353632053533331616053533152535371525072735371707273537052507;
0xa1f2319190eddfe030703172d1e130f2423191a0d96032d4663465946d9fe2229242c0a24422920351f1f35202942240a2c242922430274023d653c3c653d0d;
0x51fe2de4fe2b2e59a9323163a7fd110147ca039f0a5038030703a3fc3b310e1f02043a3c0e1f02043b128dcefe0d1702df01b52b26361ffc030703172d1e060d;
0x350b0a364c2b2f543805430b452c343d0c9139623d3d6239297d030703172d1e060d0a1f2319190ecffe030703172d1e130f2423191a0d58050d38500adafe41;
0x19300a9f5b01b81c2e592401112d2a100e0909271124221a12500115312a191a0e2a103823191d9a010d23371c3044193f53540c3d342c450b430538542f2b4c;
0xe0909271124221a12500115312a191a0e2a103823191dd97844341fc3c3486c0cc4464c4d1419295753411caa4d7f1c3244019c641d3b0c5f1d3b0c640b4b4c;
0x45183eb0ced8cdad3c3727027032113311051121111516323315132107050e1737053e331121113337000022001e0015003a02620700003200030001112d2a10;
0x1300e702f7023300420009001001f0feacbc01fbfe1c2e6dfb012e605f584d3b123d0e374b5861643005fefb013f4065fe15012b2635b623fd35a5cadad5bb;
0x26353317161607060625363633150706062726261726373632331616072201022e2223020e1415021e3233023e3413000069005f00540049003f00330028001d;
0x365f7d48487e5f364216070622232626373217060623353736361716162516161523272626373636073617161415060627340506062726343536361716140726;
0xa3825145e3ebe03182626180329020101192626190101c01b177f0c3722145e3dc6fe360c831a1d033e5c15f31402141111140212155b01365f7e48487d5f36;
0x33e6015b71b177d0b3b2615603ec203192a281b0361017d5f36365f7d48487d5f36365f7d488d01120214111114021413e3380b7d171c033e5d14a4fe1d1a82;
0x398030000500005000003192a2a1903c61c19840c3824165f3f8e3b0a81191c033f6016f81402141110140212140a13090214101114020a130ae5380c80171c;
0x213535032e3435231515031e1415213535033e3435231515030e1415233535033e34352315273523150735231515031e1415010000570051004b0044003d0020;
0x1fe8fe1d2b2c1d461d2b2c1d26021d2c2b1d461d2c2b1d3c1d2c2b1d46b946b9461d2b2c1d850227262637153335170706060735352626371133111707061415;
0x7b1e322c2a2c197a7a192c2a2c321e7b74172a282c331f464f1d302c2d311e71558af7f78a55711e312d2c301d4fe1020b1408ab46ab08140bf21f165d465d16;
0xcb02effc57036e21352125112111370000070003003902c503de006e0002000c180c875454870c180cf15a20371849eefe1201491837205a461f332c282a1774;
0x15231533152335231517020e1121112726262201112111333537353636323316161417151300002f001b0010002003800200006e000300dd3fa5fe5b01de35fd;
0x3a4f29d3fe2003e0fc2a26304627274630262a200338293232463232293855523a088601083a532e0901eefd463a283e22223f2a39b435231523353335233523;
0x222326343536323316143726262223060614151616323336363413000034001b000f004403e80100005000030000632455358484355524633c284e3963029afd;
0x2f2a2a2227204e4e2027222a2a2f30613b2c2a3d3d2a2c3b3e2d4a2e2e4a2d2d4a2e2e4a2d730727112311072707170717371737273717071737173727370306;
0x1420407005000020033483501cbfe483327312a2325242524454524252425232a31a3fe3d3d2b2b3d3d2b2e492a2a492d2e492b2b492ea2022e5046502e2b30;
0x24d102252a020341063d68838e44448e82683c04033b041616213736320127343536362117161415060633373435032e2223030e1415161601000025001e00e6;
0x49003d00310025001903a203f6ff50000c00352f2f3567fe201e335d28285d33101f0f2225447a664b29294b667a44132410e6019b40bcfd409a4750fe062b;
0x6141516323336340123151506222326343523151516160706141516323315071737213521353335211523373634010000a6009a008e00820076006a005e0052;
0x33363417262223061415163233363417262223061415163233363405232634353632331525262223061415163233363417262223061415163233363417262223;
0xebcffe381818c6022622230614151632333634272622230614151632333634252622230614151632333634172622230614151632333634172622230614151632;
0x121219191212199dfd21292a2158320219121219191212191e19121219191212191e19121219191212198afd3a141616163a221f28244551477329707d01a3fe;
0xd63f2e0f423802011912121919121219961912121919121219180119121219191212198c19121219191212197219121219191212195019121219191212193219;
0x1219191266191912121919129b13171715563519191212191912661919121219191266191912121919125d028921292a21887740460b0b2e2432332d6b2c683f;
0x3b002f00230017000b002003f103f6ff32000d001919121219191212191912121919120419191212191912121919121219191235191912121919125c191912;
0x22230614151632333634072622230614151632333634072622230614151632333634072622230614151632333634010000ac00a000940088007c00700068005c;
0x1331133113335230126222306141516323336342517161614150606222326343536362707061415021e3233023e3435022e1326222306141516323336340726;
0x1212192e032622230614151632333634072622230614151632333634072622230614151632333634052622230614151632333634252622230614151632333634;
0x2a4c8d606c682d23163a4934566733538b6538375127c81912121919121219851912121919121219851912121919121219791912121919121219721912121919;
0x1219191212191b19121219191212193919121219191212198ffd191212191912121900011912121919121219d8fe5a465afa4f021912121919121219b9fe173b;
0x2c471336195f433e4f2a102540522e364c33118dfe191912121919123a191912121919121b191912121919121c191912121919123219191212191912f5021912;
0x19121219191279191912121919127319191212191912071919121219191212191912121919120b017dfe83013f70fe19191212191912e70d253728294b2f463f;
0x21e3233023e34352626222306060706141516163233023e37363233161614150606222326262726262223060614010000620031001f037403e8ff6400020019;
0x414765373f6b423460271023221012281b6703023e34352626222306060706222326343536363736363233021e141506062223022e3435363233021e17163225;
0x488155627e2b0f0b060a130c1c2d57633c347567405d9d614473542e1407091b1d0c2865468cfe3965874e54916d3e5faf7767a44816221f2b12111b1e172b62;
0x2628102552856173a0542a3f3f160b0f1d250d292c6c594d31376a9a6376b96a344314311e182a1a172314251b3e6e4a4d6d3a1f2f14271b1622122002675634;
0x5a4c370e0e374c5a31276025730432213736363507030e1517031e3527262621130000150090021505d4003200010000254a724d5c884c3b31110f1411071d17;
0x13711211121132135211507051123112135130000150011000500e10260036e006e0003002f3f0e470833424217101742423308470d3b2bd60185fb25662931;
0x2a002600150020033006000032000300f5f5c9feea0c010dfe730141caed3e34028dfd3fa20228d9fefa01328efda9013c61fee60132ccfd46c002a0072135;
0x2e197afc54023eb35c132e3435332f1336143137383832155fb04cc00215213505011716141506061737363435022e010517161617051e3727052e2726262500;
0x6e000500003f3f97eafe040b0e0412041b0b2411181d120717011811230911577a8782691d281c6d8a8e7f580c0a1e18340303f3fd98030b170605340b0e1d;
0x155feab017dfee8f702c3fc59012a02b1fc34f103231133012311330121112101152335211505213521112111230100001900150011000d0007003803f10300;
0x1616372726343536363233151300007c007900680043004203d803f6ff6400040000f70109fef70109fef7015efd18846c57182003cafd3602464683fd4646f1;
0x16272622230606373634251123152327263435023e27070606222327022e07171616141506062335231133353333161614150606173736363736363233161617;
0xa1c3b4830395e1a131d1719222b1b2f1d49aa0727233317071737333523152335231523352313022e3736343526261716323336360706141516160706061415;
0x220e102f1741934c4f9441172f110e22351e031942312a401b01014002463a0e0a293c1c1d286e925e075c8f6c281d1c3c290a0e3a4646491d2f1b2b22190b14;
0x1a32210121311a311d617941194e247dfbfe4f2b3e1d24390834040b050f231827110d1108340839241d3e2b4f720225245f134a292c942e4628462846141e34;
0x3f6ff6e00030026264f2b27a1d79898989854fe493a0d234e235374291d18181d297453234e230d3a49250e0e0e13130e070e073605017d244e194179611d31;
0x320601460601191846386c9b62629a6c38af0311171616052737363601113536051133112517161411331135022e2223020e141101000023001e001900a502af;
0xf001d5048f0032000400000c01042921bfbf21290493fd55015944e5f3fe0d01e5224f2cabfe5501487d5f36365f7d48abfea502476e27defedc266e48c8fe;
0x3e3233031e1415060605272634353632071425161415060635352625222306141516163221333636343526222306062726262223020e01000040002d0024001b;
0x402a1c010101305062662e2b656452310102d3fc35293c3e1c95033c29351cd4fc1a57521e4f473b03484e1e52570d1b0f2e8389383a89812ef6032726343503;
0x1a00c3027d046c0032000400000b0a0c1534342c1b1b2c34341511040c07031b161a1d282b531d1a161b03182b2834402a1f311d1d311f2a4001022a402323;
0x343533151516323333161415020e2217233533333636051523351716321735211533113734352622233533352115331523230614151616110100004400280021;
0xd7fec302091e1d153e39de262b8b2b26de393e151d1e09374c140f1c0db9fc4c0d1d0e577502d2195259ef279bfe27ef58530e0b640423022e34353632333336;
0x7400630057004b009703a503f6ff32000700151f210b191a2e1c29291c2e1a190b211f15d3940a071194a5070ad3d3d329012723333e343f3f343e33102713;
0x33363435262635352626373634352626352315070606272626373435262635231507061415160706063526263523150706141516160706140100009c00900082;
0x15060706060327263435023e3233021e141506060526343536323316141506222126343536323316141506222507061415163233363435262621070614151632;
0x151c4619170114291409151c4619180b142b14161b46191813102c38730326343536323316141506221734353632331614150606272626052634353632331614;
0xb0a15130a030710074d01013d6271343171643f010248fd0d0a1514090b11b6020b0a13150a0d1315fd1919302928270e126302110f26292930181a382d100f;
0xd28161f3a0df2f20c362008090315191f3a0dacac0d37201c14040a071d3a0cf2f20d37201a280c28764f87020d0a15130a0b11d00a15130a090e08120828fe;
0x120e09040905d4fe0b180c416242212142624111120cc2181113262712111818111227261311188e0c37212c3138231a311010311a2338312c21370c4f4f7629;
0x363637023e3435042e2726262223020e07030e14010000470028002003c602feff42000200001811132627121118290c13262712101701050a04121710132627;
0x905263723101f2f3329080f1e33312f3320100928322e1ec602033e37363233161617021e1415020e070606232726262726263407031e171614231521352335;
0x10a172b4e403a695a452c060c0d06070d0a052a455b6b3b910126342d080f2e322c281308313728162e251d1202c801121e272e15431023372605092b9e012b;
0x2306061401000086007a006e004b0020037e03feff2c0004006f5535070d08070d06355670413d401e0a084e55554e080a1e403d404e2b170a01383d3f3f3d38;
0x32333636343526171616171614150606152135272634353637363607141516163233363435262622230637363435042e2726262223020e07030e141516162722;
0xf070b1f341e7e03263435363233161415062221263435363233161415062213033e37363233161617021e1415020e0706141516162137343526272626340316;
0x191611e7fe2a37272e15a9292a1a2a190c1029190a0c13199f0119160a1a2a100c192a1a2a291e341f0b080e0e1f2f3329080f1e33312f3320100928322e1e0e;
0x4a3b3a695a452c060c0d06070d0a052a455b6b3b3b4a1603233820a4021607081c1e0e1147fd0e1e1c080716145426342d080f2e322c281308313728162e2512;
0x70d06355670413d421e08042820143219432a300e0a1e403dcefe2b20311a20180b0e07030e0d0d2d1f3e3b282d0e1403070e0a181f1a31202b1f2038230417;
0x2626372707373435042e2307030e1415021e15230100004a003f001f00200385020000320003000025140a1f2e140e12120e142e1f0a14256b016f5535070d08;
0x3d4231a71e55031622252008d908202522162842263328023537363617161415062213030e23062215233523262227022e3435043e3317031e14012133363435;
0x20613734111220353a5177595878513a3520304a340c77e1020a13092e3e2c371d061937310305033702060231381906141e231e0963091e231e14befe310154;
0x152301000048003d001d002003510200003200030000770309041a411710052501272c250a01a2a2010a252c270c1b292e446a51516a442e291b90fe232c2f4b;
0x221628422633f401353736361716141506220317031e1415030e23062215233523262227022e3435043e032133363435262637363435042e2307030e1415021e;
0x5878513a3520304a340c77e1020a13092e3e2c375f091e231e14061937310305033702060231381906141e231e09633101543d433219201622252008d9082025;
0x2003d902000032000500770309041a41171005a202516a442e291b0c272c250a01a2a2010a252c270c1b292e446a511ffd232c2f4b2119442920353a517759;
0x30e23062215233523262227022e3435043e03213336363435262637363435262627032e2307030e07061415161632171616152301000062005a005000450025;
0x3b431b221d392c313f0b22241e08d9082126220a3d2f214e450e1f11331a022634353617161605363435171415020e07353736361716141506220317031e1415;
0x513a1b0a352721311b0a100577e1021f28010e0dab011c281128225d0a130938342c375f091e231e14061937310305033702060231381906141e231e09632901;
0x1e0e262006b177030904243a141005a202516a442e291b0c272c250a01a2a2010a252c270c1b292e446a511ffd0e221f21381a1350262836091a3a5075555a78;
0x34352626373523150727262627230707062735231517070614151616010000550052003f0035002b002003ce02000032000500001a131f0d1b2f14074127070f;
0x1c46282a3050413d023717033727262634353636323316161415020e1733273717161614150622212323263435023e1707061415161632213336343526263736;
0x5d1d3802191a5019436a3e47774a4978473e6b4219451510223a222c37f4fe203128223a221188411b433b3101543e4031424f2f2a27461b17321a384037362d;
0x43282b462a2a462b28432a05bc8c04112d2c111005060f112c2d1104034b2e1f220e232c2e4b201d5d372b4b1d50a491430a0f05b6b60a144391a4501d4b2b37;
0x3317163221171415060706061737363221331616372726262734353635232326263523150706222325000037002300a8011b030000320002005353cefdbc042b;
0xa0b0c91fe0c0b0a0e2d48164f17472d3dfe2711283e14340d3d1eb1011e3d0d34143e2811274e1c3c0eb90e3b1d4eb702070614151621373435262633333636;
0x10000530048003d00210020038d0200003200040000102417202121201724103825253817332122053622221f22221f22223605222133173f211c20201c215d;
0x3617161617353736361716141506220317031e1415030e231523352327022e3435043e03061415161632213336363435262637363435042e2307030e14151616;
0xa13092e3e283169091e231e140617342e1337122f341706141e231e09b9431b433b29013b431b433219201622252008d908202522161f1a1802232326343536;
0x442e291b0c262b250ba4a40b252b260c1b292e446a51e8fd4b2f1f220e0e221f2f4b2119442920353a5177595878513a352029441936022f382b3f2e09120ac3;
0x3233023e3435262637363435032e27022e220500008800770068005a00380020039703feff4d00050000051017411a04090377770309041a41170f06a202516a;
0x161614272626341735022e2726263435023e3736363233021e17021e1415020e07020e03030e07030e07020e141516163233363634353636171607061415021e;
0xc11170a1a223a154386716f844215392214151a2622090913233d33990106061415062223263435023e15161401030e35023e37363617161425363617161617;
0xe1a2bf3fd2c1a0e2112050703473f10d50615163032122328080618353131321607061c1e1611323016150501653e22130a071f231c04204f482e0b282a2d2b;
0x71d314730191907071919311e0540211650371e2210050511221d3750161a554248775b39090a0d0804022d1d150d0c16304b2b011f02071c3c360506041320;
0x1050b07103f28293e10070b050110343602090b051c48481b060d27483d57804c07050c07070c05052e4d69413d48270d061b4848e90203080d0a0731506b42;
0x20e07030e14151616070614151616323307231501000075006a005f00310020031f050000320004001c332905030404273c290a060c05cefe08080502363410;
0x231533153311231523353333161617021e1415060607061417213735262627263435033e3736323301352327333336363435262637343435042e272626222323;
0x2b0f943b411a6254022132362b080f1e3331eb30341e0f082b363221010154621a413b940f2b2f04161415060622233736360516162323262634353636253315;
0x441f3522223f2003450b2425a92a4512a9fc452aa925240b45376001b3ecec46466d7a2c38130832392942370e0d27ddfd270d0e37422939320813382c17db01;
0xb0d0631516c415c5b0f041c135c5c131c040f5b5c416c5131060d0b1ffd3f2222351f4443050b190d3f6c573f28060c0d04040d0c06283f576c3f0d190b0543;
0x2115330706062726222306141516160706140100004f00420035002500760265030000320004002320151b0c1434393934140c1b15202302a5843f2443011ddc;
0x41463d460406ec0206062323263435363233161625363233161415062223272626013535043e3317031e14150521353526263736343526222306062726263335;
0xd04021c0c07372229260f24149901240f26292237070c1c0e63fe1c2c2f27096709272f2c1c05fe41020505463d464117351e0f1b084d79fe4d081b0f1e3616;
0x30152116171c050505051c17162115301bfefe2e1b3b495e7c51517c5e493b1b2e3f720d190d03462b2d46080b2468323f3f3268240b08462d2b46030d19;
0x335b010b223958805a60895c391093fcb7030f2c4466916272a26e4617e90337033e3233031e05213527032e2223030e01000019000d009601e9033500320002;
0x2107030e141516162726222323060614151616323333363601000067004f004100330051037804000032000400173b3e34212c474f233f3922504e4127345768;
0x3435033e3317021e1415030e1505062223232634353632333316142536323333161415062223232634071716323333363634352626222323060637363435042e;
0x224402221d3d1d22231c3d1c233b0c3e3a29393e18173f3b25111e0d2d2c24383e350ea6fe0e353e38242c2d0d1e11253b3f17183e39293a3e0c3c033527022e;
0x181e301c02031d4c383257575d6d44446d5d575732384c1d03021c301e182b1a1c15200309272b1f2c434619ec1946432c1f2b270914fe231c3d1c23221d3d1d;
0x130000450039002d0021008a0299030000320004006207121f32272551658054548065512527321f120762260b0b161810101818101018160b0b162f151c1a2b;
0x35331507151705263435363233161415062221263435363233161415062203353735211517150727262223061415161632333621173233363634352622230606;
0x331512e8015ffec23c953cc2d9fd210a0f2226101662020f26220f0a211ae83cdffe3cb3112e1a252e2035214512ce0111452036202e25192f11de2135373527;
0x21001300200325020000320003000012d2935d10105d93d24528160a192e170a12120a172e190a16282b01795e54545e79bd121533251d3321282821331d25;
0xa0c05761b76050c0a68fef3011122a57bc7fe7ba52211250207270337363634353733171515021e052135272634352735373521151715071515060601000024;
0x61415041e140100003b0023001f0020035f020000500003004b4b5efd0926280c7d86867d0c2826093f3f02321ca8bd618c3f3f8c61bda81c3202e10244435b;
0x35670135141f231f14221d104ffe101c23141f231f14d60135042e3435363632333316161415040e14073315022b152135233535043e34352626333521153307;
0x2f2b462929462b2f3d2821233428399b3f3fd5232b1d1e2b47382f4e1d3f3f1d4e2f38472b1e1d2b230c02141e231f13223e2975293e22141e231f1375717146;
0x16163323272626211533353526263537363435231521272634352115150607020e2315210100003900350030002200200357040000320004000028342321283d;
0x670c09cafd2839101b3e011b103928702812210d1101462826262846bbfe051638fe1a0b232c1b28360321012335332315232726013736363734352115151617;
0x29001d0094024d0300006e0004005d5d2e2fc0fe52ca5f987b14147b985fca5223542d867b1c2d015d012d1c7b862190674a4a7a9a428c82333f200329296f;
0x3213521012634353632331614150622212634353632331614150622251616323336343526262107141516163233363435262633112111330714010000390035;
0x5841461c49582c42166f0191fe2a58f101adfd5302b4fd0d0a1514090b1110020d0a15130a0b1187fd16271c282707099d011216281b292607091a21fd1c1243;
0x272622232723072323060615171614150623010000630049005d023d0500003200020000f1defd313e403f403f3e31313e403f403f3e312f461c49582c42162a;
0x323333161607061415160521150706141516163233363435022e3435363233161637272223061415021e14150622232634353636343535262622273435363635;
0x412a45531d271d160c0f1a0b0a1e20273d1d271d311f223210101c2a13111c2517502ff301c001f32f5017251c11783d05373435262637363233333636331716;
0x2e292e1e141d1918131413113e11140a22211e39241725201e1e20251724391e202237010c1e13112813c42d210d560d212dc4132811131e0c5dfcff030a1225;
0x30e1411010000350016002a0355030a006e0002000021202b41150f0914141414090f15412b20213f390e1b131e3420442e1f382d230b0d1003023b0628261f;
0x72c3b372543293e4133080f1e34302e3420100932413d28550314061406062135263426343435043e37363233161617031e14131135042e2726262223020e07;
0x3f3f2e0534726c5b3a050d08070d05395b6e7234defe22013a7e7a6542060c0d06070d0a0540657a813bdefe2a03010101a4fd01012335382b060f2e322c2813;
0x330706141516160715071737330706141516323336343526263701000080007c0078007400690055004f0042003c00ac0318050000500009002f3e3e2c05052d;
0xe171523052335233533051616141506222326343536360511211533150107273736343526263335273335331533352315233521152335231533353315330715;
0x653c3c65d65bca0e1d21102362287f700203352e31352c1f538e0123353321331523052135210717233727072707172337133727262634353636331716141502;
0x2ed72b12b1f3d3e1f2bb07236240c160d19113611190d160c2474cdfe329fd1f70121171613181007035efea3fe9fc1026b1910211d0eca5bd6653c3c65bafc;
0x747b01accf17015b301f391d234814534f3f2ef5373f3f37f52e3f4f531448231d391f463b542f6a080f09222c332b2a2d0a46a7026565f0fb6565650346fdba;
0x5d0056004a0084030805c3ff500004000026263590cf63381850501838631ffe481f2620171d461818461d1720261f481052cf2eca0915111116190a11190b;
0x14153335333336343505210706060706062123042e343536362707061415041e3221070606333736363307060633373636371236230706062337023e33000063;
0x47170e011f3a1a471a3b2257234220463f8e5516624446253e18590e212f21eb2315331737073727072707172506062337363736330706060127352315232306;
0x5e40674d612876772e5c5c2e7791013a1b552f3510205b0d1306a6fef44647262b4647262b01014b013d5511203a1bc7fe1038444438231613241f2428425051;
0x685f2a552bf4013904e42d1d45502e1c8f326dda760f37241b2d35362d0d1a39142f1c5128163e4341352032733a3e713032723b76be478d070175408744234a;
0x186a033632331616171616213736360721352127022e2726262223020e07020e010000200013007f016a037f00320002003f3d30c659263e3e2659373a223520;
0x2000008070d063b2f2e3a07ae3f2c452b060c0e05070e09052a462e40012e322c27140a351c7bfe1933089f3803e1fe173229080f1e34302e342010092932;
0x11092933170f0336323316161716162137363607211115163233023e23150606222326341135032e2726262223020e07020e250000300023002a030f03f6ff32;
0x57321c3e2b3d2bbd011e3c3424050c0d06070d0a052a462eb72e322c28130a351c7bfe1a32089fc701444b363916023e0a1f202a1f1d2823060f1e33312f331f;
0x23e211716163727022e2307020e0706061415161607222326340100005c004700380030002700e102320400003200050008070d073a2f2f3907ae6efe445e35;
0x3070622232634353632272306061415163233363605373634352626220733161415060605371236331712160507062223343536360517163233363617163233;
0x4f4503403d25301bfe406e2315246d40defd141c0a124432b5fe02422917280d0b190e212e1e0b0a0213261438587854218b1e3b3b1d475f3001010d261321fc;
0xfe67292018131d3d11682c35131007081e2a111b30152369dbeb8272a882390f3947240407041720117d0205180e0d133d4003454e2135201c340a0502473620;
0x850079006d0061004b003f00330023001700e102bd03f6ff320009000011161213191e351f301c2b3026295e08382a20311a351e19161a04a06705018a8afb;
0x72622230614151632333634253636323316161415060622232626340526222306141516323336340107030e1415161632333636343526262223060637363700;
0x614151632333634072622230614151632333634072622230614151632333634073333363435022e2223153333021e1415062223072622230614151632333634;
0x121919121219321912121919121219b60120351f21341e1e34211f3520fafd1912121919121219990210353d3623335633335533335533070c06404f77262223;
0x4d55542434533030533434523001015858c619121219191212191e19121219191212191e191212191912121906ca59521929361c9d9e091e1d153e39c4181912;
0x19126619191212191912693e33173732203f151f210b191a5019191212191912661919121219191209352020351f1f362020361f4619191212191912bd010f3b;
0x9626222306141516323336341300000b00b3012a011f019600010000eae04646962315333700000300e000dc00f6ff9600010019191212191912661919121219;
0x2ecaca2ec9cadf01caca2dc9c92dcaca2dcacafd0137173727372707270717070100000b000d02fd011e000f0001002b2b1f1f2b2b1f69012b1f1f2b2b1f1f2b;
0xa8024646a046464f012311331323113301000007000300a802350281014f010200d9fea80246469f012311330100000300a802e50181019f010100caca2ecac9;
0x4f01040000d9fe2701d9fe2701d9fea8024646a04646a04646ff23113313231133132311331300000b0007000300a80285028101ff00030000d9fe2701d9fe;
0xff000500d9fe2701d9fe5ad9fe2701d9fea8024646a04646a04646a046464f012311331323113307231133132311330100000f000b0007000300a802350200;
0xd9fe2701d9fe2701d9fea8024646a04646f04646a04646a04646ff2311331323113307231133132311331323113313000013000f000b0007000300a802850200;
0x4646a04646a04646ff2311331323113313231133052311331323113313231133130000170013000f000b0007000300a80285020000ff000600d9fe2701d9fe5a;
0x132311331300001b00170013000f000b0007000300a802d5020000af000700d9fe2701d9fe2701d9fe5ad9fe2701d9fe2701d9fea8024646a04646a04646c0fe;
0xd9fe5ad9fe2701d9fe2701d9fe2701d9fea8024646a04646a0464670fe4646a04646a04646a04646af2311331323113313231133052311331323113313231133;
0x11331323113313231133052311331323113313231133132311331300001f001b00170013000f000b0007000300a802d5020000af00080000d9fe2701d9fe2701;
0x900d9fe2701d9fe2701d9fe2701d9fe5ad9fe2701d9fe2701d9fe2701d9fea8024646a04646a04646a0464620fe4646a04646a04646a04646af2311331323;
0xff231533372315333723153305231533372315333723153305231533372315333723153313000023001f001b00170013000f000b0007000300a80285020000ff;
0x3521010000030079015d023a0127010100a5a5a5a5a55da5a5a5a5a55ca5a5a5a5a5a8024646a04646a04646c0fe4646a04646a04646c0fe4646a04646a04646;
0x30051025d026200270103003fe9fe3fa6013601cafe3601cafe5d022135211121352101000007000300e5015d02ce0027010200003f3a013601cafe5d0221;
0x35210100000f000b0007000300e5011f03ce0065000400003fe9fe3fe9fe3f12023601cafe3601cafe3601cafe5d0221352111213521112135210100000b0007;
0xb000700030051021f036200650005003f3f3fe9fe3f3f3fa6013601cafe84013601cafe7cfe3601cafe84013601cafe9b0121352105213521012135210521;
0x3fab3fab3fab3f12023601cafe7cfe3601cafe84013601cafe7cfe3601cafe84013601cafe9b012135210521352105213521052135210521352101000013000f;
0xfe3601cafe84013601cafe9b012135210521352101213521052135210121352105213521010000170013000f000b000700030051021f03620065000600003fab;
0x1b00170013000f000b0007000300bd021f03f6ff65000700003f3f3fe9fe3f3f3fe9fe3f3f3f12023601cafe84013601cafe7cfe3601cafe84013601cafe7c;
0x1cafe84013601cafe7cfe3601cafe84013601cafe7cfe3601cafe84013601cafe9b012135210521352105213521052135210521352105213521052135210100;
0x521352101213521052135210100001f001b00170013000f000b0007000300bd021f03f6ff65000800003fab3fab3fab3fab3fab3fab3f7e023601cafe7cfe36;
0xfe84013601cafe7cfe3601cafe84013601cafe7cfe3601cafe84013601cafe7cfe3601cafe84013601cafe9b0121352105213521012135210521352101213521;
0x3523053335230533352301000023001f001b00170013000f000b00070003005102380362004d0009003f3f3fe9fe3f3f3fe9fe3f3f3fe9fe3f3f3f7e023601ca;
0x3f1202d1d10d01d1d10d01d1d1e6fdd1d10d01d1d10d01d1d1e6fdd1d10d01d1d10d01d1d11e0133352305333523053335230133352305333523053335230133;
0x232626343536363233161614372626222306061415161632333636340100001f000f000d028302950000010200003f3f3f3f3fe9fe3f3f3f3f3fe9fe3f3f3f3f;
0x1b502ea00ce0004003b24243b24243b23233b243555323255353555323255355101223a25233c23233c23253a22403458353559343459353558340001060622;
0xce062223263435363233161405062223263435363233161427262223060614151616323336342526222306061415161632333634130000330027001b000d00b8;
0x18293d1c2f1c1c2f1c3d2a2a3d1c2f1c1c2f1c3d2a5101201717212117172018012017172121171720e83d2a1c2f1d1d2f1c2a3d18013d2a1c2f1d1d2f1c2a3d;
0x2223263435363233161437262223060614151616323336340100004d0041003300270019000d00c6022902dcff5a010600002222181820201818222218182020;
0x2a1c2f1d1d2f1c2a3d5a010622232634353632331614372622230606141516163233363403062223263435363233161437262223060614151616323336340306;
0x2018293d1c2f1c1c2f1c3d2a5f022017172121171720303d2a1c2f1d1d2f1c2a3d302017172121171720303d2a1c2f1d1d2f1c2a3d302017172121171720303d;
0x4100330027001b000d003f02b5026300ce00080022221818202018293d1c2f1c1c2f1c3d2adbfe22221818202018293d1c2f1c1c2f1c3d2adbfe2222181820;
0x323336340106222326343536323316140506222326343536323316142726222306061415161632333634252622230606141516163233363413000067005b004f;
0x2f1c2a3d18013d2a1c2f1d1d2f1c2a3dce0622232634353632331614050622232634353632331614272622230606141516163233363425262223060614151616;
0x2117172018012017172121171720e83d2a1c2f1d1d2f1c2a3d18013d2a1c2f1d1d2f1c2a3db8fe201717212117172018012017172121171720e83d2a1c2f1d1d;
0x18293d1c2f1c1c2f1c3d2a2a3d1c2f1c1c2f1c3d2adbfe222218182020181822221818202018293d1c2f1c1c2f1c3d2a2a3d1c2f1c1c2f1c3d2ad80120171721;
0x161437262223060614151616323336341300008100750067005b004d0041003300270019000d00c602b502dcffce000a00002222181820201818222218182020;
0x36341706222326343536323316143726222306061415161632333634050622232634353632331614372622230606141516163233363417062223263435363233;
0x171720303d2a1c2f1d1d2f1c2a3dce06222326343536323316143726222306061415161632333634050622232634353632331614372622230606141516163233;
0x172121171720303d2a1c2f1d1d2f1c2a3de82017172121171720303d2a1c2f1d1d2f1c2a3db8fe2017172121171720303d2a1c2f1d1d2f1c2a3de82017172121;
0x1c3d2a9e22221818202018293d1c2f1c1c2f1c3d2a9e22221818202018293d1c2f1c1c2f1c3d2a5f022017172121171720303d2a1c2f1d1d2f1c2a3db8fe2017;
0xd00c602b502dcffce000c000022221818202018293d1c2f1c1c2f1c3d2a9e22221818202018293d1c2f1c1c2f1c3d2a9e22221818202018293d1c2f1c1c2f;
0x50622232634353632331614272622230606141516163233363425262223060614151616323336341300009b008f008300750067005b004f004100330027001b;
0x1062223263435363233161405062223263435363233161427262223060614151616323336342526222306061415161632333634010622232634353632331614;
0x18013d2a1c2f1d1d2f1c2a3dce062223263435363233161405062223263435363233161427262223060614151616323336342526222306061415161632333634;
0x18012017172121171720e83d2a1c2f1d1d2f1c2a3d18013d2a1c2f1d1d2f1c2a3db8fe201717212117172018012017172121171720e83d2a1c2f1d1d2f1c2a3d;
0x2a2a3d1c2f1c1c2f1c3d2a5f02201717212117172018012017172121171720e83d2a1c2f1d1d2f1c2a3d18013d2a1c2f1d1d2f1c2a3db8fe2017172121171720;
0x2adbfe222218182020181822221818202018293d1c2f1c1c2f1c3d2a2a3d1c2f1c1c2f1c3d2adbfe222218182020181822221818202018293d1c2f1c1c2f1c3d;
0x6b005f00530047003b002f00230017000b001a039302bcfff1000e0000222218182020181822221818202018293d1c2f1c1c2f1c3d2a2a3d1c2f1c1c2f1c3d;
0x32333634050622232634353632331614372622230614151632333634170622232634353632331614372622230614151632333634130000a7009b008f00830077;
0x26343536323316143726222306141516323336340506222326343536323316143726222306141516323336341706222326343536323316143726222306141516;
0x13131a2d3525253434252535f1062223263435363233161437262223061415163233363405062223263435363233161437262223061415163233363417062223;
0x2535e5fe1a13131b1b13131a2c3425243636242534c21a13131b1b13131a2d3525253434252535e5fe1a13131b1b13131a2c3425243636242534c21a13131b1b;
0x19142335352424353524c1021a13131b1b13131a2d3525253434252535e5fe1a13131b1b13131a2c3425243636242534c21a13131b1b13131a2d352525343425;
0x19142335352424353524851c1c14141a1a142435352525343425851b1b14141919142335352424353524851b1b14141919142434342524353524851b1b141419;
0x5f00530047003b002f00230017000b001a039302bcfff10010001c1c13141919142335352424353524831c1c13141a1a142335352425343425851c1c131419;
0x22232634353632331614170622232634353632331614272622230614151632333634372622230614151632333634130000bf00b300a7009b008f00830077006b;
0x36343726222306141516323336340506222326343536323316141706222326343536323316142726222306141516323336343726222306141516323336340506;
0x35363233161427262223061415163233363437262223061415163233363405062223263435363233161417062223263435363233161427262223061415163233;
0xef3525253434252535e4fe1914131b1b131419ef1a13131b1b13131ac23525253434252535ef3525253434252535f10622232634353632331614170622232634;
0xfe1914131b1b131419ef1a13131b1b13131ac23525253434252535ef3525253434252535e4fe1914131b1b131419ef1a13131b1b13131ac23525253434252535;
0x1914141b1b141419191423353524243535242435352424353524c1021914131b1b131419ef1a13131b1b13131ac23525253434252535ef3525253434252535e4;
0x1914131c1c131419191423353524243535242435352424353524f71b1b1414191914141b1b141419191423353524243535242435352424353524f71b1b141419;
0x5f00530047003b002f00230017000b00a8020a032d00790012001c1c1314191914131c1c131419191423353524243535242435352424353524f61c1c131419;
0x353632331614252622230614151632333634252622230614151632333634272622230614151632333634010000d700cb00bf00b300a7009b008f00830077006b;
0x22230614151632333634272622230614151632333634252622230614151632333634050622232634353632331614070622232634353632331614050622232634;
0x36342526222306141516323336342726222306141516323336341706222326343536323316140506222326343536323316141706222326343536323316143726;
0x3425243636242534ef34252436362425346801062223263435363233161405062223263435363233161407062223263435363233161427262223061415163233;
0x36242534ef3425243636242534de013425243636242534e5fe1a13131b1b13131aef1a13141a1a14131ade011a13141a1a14131a4efe3425243636242534de01;
0x13131ac33425243636242534de013425243636242534ef3425243636242534c31a13141a1a14131a22fe1a13141a1a14131aef1a13131b1b13131a2c34252436;
0x1b1414191914141b1b14141919142434342524353524253434252435352425343425243535244f021a13141a1a14131ade011a13141a1a14131aef1a13131b1b;
0x352425343425f81c1c14141a1a14141c1c14141a1a14141c1c14141a1a14243535252534342525353525253434252535352525343425f71b1b1414191914141b;
0x2f002b002700230013000300ad021f03f5ff640006001c1c13141a1a14131c1c13141a1a14131c1c13141a1a14233535242534342524353524253434252435;
0x35355934345935355834a04646a00123153301333523053335230706062223262634353636323316161437262622230606141516163233363634072315330100;
0xb00007df9fe3f3f3f3b3b24243b24243b23233b24355532325535355532325535df7dad02464681fe78784302787864223a25233c23233c23253a22403458;
0x6061415161632333634252622230606141516163233363405231533252315330100004f004b00470043003f003b002f002300150007000300f7010503ab007e;
0x2f1d1d2f1c2a3d95fe28281801282821012315332523153305333523053335230533352305062223263435363233161405062223263435363233161427262223;
0x2f1c3d2a73333333f7012828180128281cfe3c3c2b01313120013c3ca4fe201717212117172018012017172121171720e83d2a1c2f1d1d2f1c2a3d18013d2a1c;
0x2900250021001d0011000300140375028eff0e0110003333338626262626262a222218182020181822221818202018293d1c2f1c1c2f1c3d2a2a3d1c2f1c1c;
0x72315330733352305333523070622232634353632331614372622230606141516163233363407231533010000750071006d0069005d004f004b004700430037;
0x7062223263435363233161437262223060614151616323336340723153307333523053335230706222326343536323316143726222306061415161632333634;
0x17172121171720303d2a1c2f1d1d2f1c2a3d532828c43c3c2b013c3c442017172121171720303d2a1c2f1d1d2f1c2a3d532828b1012315330733352305333523;
0x262a22221818202018293d1c2f1c1c2f1c3d2a793c14032828c43c3c2b013c3c442017172121171720303d2a1c2f1d1d2f1c2a3d532828c43c3c2b013c3c4420;
0x8d02050323007e001400003c8c2626262a22221818202018293d1c2f1c1c2f1c3d2a7328862626262a22221818202018293d1c2f1c1c2f1c3d2a7328862626;
0x25262223060614151616323336340723153325231533010000970093008f008b008700830077006b005d004f004b00470043003f003b002f0023001500070003;
0x16163233363407231533252315330733352305333523053335230506222326343536323316140506222326343536323316143726222306061415161632333634;
0x15332523153305333523053335230533352305062223263435363233161405062223263435363233161427262223060614151616323336342526222306061415;
0xcc3c3c2b01313120013c3ca4fe201717212117172018012017172121171720303d2a1c2f1d1d2f1c2a3de8fe3d2a1c2f1d1d2f1c2a3d53282818012828210123;
0x28281cfe3c3c2b01313120013c3ca4fe201717212117172018012017172121171720e83d2a1c2f1d1d2f1c2a3d18013d2a1c2f1d1d2f1c2a3d532828e8fe2828;
0x1c2f1c1c2f1c3d2a732828288626262626262a222218182020181822221818202018293d1c2f1c1c2f1c3d2a2a3d1c2f1c1c2f1c3d2a793c3c3c8d0228281801;
0x430037002900250021001d0011000300140305038eff7e001b003434348626262626262a222218182020181822221818202018293d1c2f1c1c2f1c3d2a2a3d;
0x353632331614372622230606141516163233363407231533010000c500c100bd00b900b500a9009b00970093008f008300750071006d0069005d004f004b0047;
0x14151616323336340533352305333523372315330706222326343536323316143726222306061415161632333634173335230533352305231533250622232634;
0x5333523372315330706222326343536323316143726222306061415161632333634053335230533352327231533050622232634353632331614372622230606;
0x171720303d2a1c2f1d1d2f1c2a3d5328282101231533173335230533352327231533050622232634353632331614372622230606141516163233363405333523;
0x21171720303d2a1c2f1d1d2f1c2a3dc9fd3c3c2b013c3cb92828f52017172121171720303d2a1c2f1d1d2f1c2a3d013c3c2b013c3c81fe28283b012017172121;
0x2121171720303d2a1c2f1d1d2f1c2a3dc9fd3c3c2b013c3cb92828f52017172121171720303d2a1c2f1d1d2f1c2a3d2c013c3cd5fe3c3c5428283b0120171721;
0x280322221818202018293d1c2f1c1c2f1c3d2a9a262626053c1722221818202018293d1c2f1c1c2f1c3d2a793c14032828673c3cd5fe3c3c5428283b01201717;
0x18293d1c2f1c1c2f1c3d2a9a26262601280322221818202018293d1c2f1c1c2f1c3d2a9a26262601280322221818202018293d1c2f1c1c2f1c3d2a9a26262601;
0x93008f008b008700830077006b005d004f004b00470043003f003b002f002300150007000300140305038eff7e001d00003c8c2626260d3403222218182020;
0x353632331614372622230606141516163233363425262223060614151616323336340723153325231533010000df00db00d700d300cf00cb00bf00b300a50097;
0x22230606141516163233363425262223060614151616323336340523153325231533053335230533352305333523050622232634353632331614050622232634;
0x32333634252622230606141516163233363417231533252315330733352305333523053335230706222326343536323316140506222326343536323316143726;
0x2a3d5328281801282821012315332523153305333523053335230533352307062223263435363233161405062223263435363233161425262223060614151616;
0x1c2a3d95fe2828180128281cfe3c3c2b01313120013c3ca4fe201717212117172018012017172121171720303d2a1c2f1d1d2f1c2a3de8fe3d2a1c2f1d1d2f1c;
0x2f1d1d2f1c2a3dc52828e8fe2828cc3c3c2b01313120013c3c442017172121171720e8fe2017172121171720303d2a1c2f1d1d2f1c2a3d18013d2a1c2f1d1d2f;
0x2f1c3d2a793c3c3c14032828180128281cfe3c3c2b01313120013c3c442017172121171720e8fe201717212117172048013d2a1c2f1d1d2f1c2a3de8fe3d2a1c;
0x2018293d1c2f1c1c2f1c3d2a2a3d1c2f1c1c2f1c3d2a732828288626262626262a222218182020181822221818202018293d1c2f1c1c2f1c3d2a2a3d1c2f1c1c;
0x262626262a222218182020181822221818202018293d1c2f1c1c2f1c3d2a2a3d1c2f1c1c2f1c3d2a732828288626262626262a22221818202018182222181820;
0xaf00ab009f0093008f008b0087007b006f006b006700630057004b00470043003f003300270023001f001b000f0003005603d50280ffae0025003c3c3c8c26;
0x533352307231533250622232634353632331614372622230614151632333634072315330100000301ff00fb00f700f300e700db00d700d300cf00c300b700b3;
0x17062223263435363233161437262223061415163233363407231533053335230533352307062223263435363233161437262223061415163233363417333523;
0x32331614372622230614151632333634072315330533352305333523070622232634353632331614372622230614151632333634072315330533352305333523;
0x6141516323336340723153307333523053335231706222326343536323316143726222306141516323336340723153305333523053335231706222326343536;
0x343400ff343444262608011a13131b1b13131a2d3525253434252535472626380123153307231533053335230533352317062223263435363233161437262223;
0x34342525354726264401343400ff3434c41a13131b1b13131a2d352525343425253547262663fe343400013434371a13131b1b13131a2d3525253434252535fd;
0x131a2d35252534342525354726264401343400ff3434c41a13131b1b13131a2d352525343425253547262663fe343400013434371a13131b1b13131a2d352525;
0x141919142335352424353524672e56032626ee26264401343400ff3434c41a13131b1b13131a2d35252534342525354726269d343400ff3434c91a13131b1b13;
0x19142335352424353524631e03242424251b1b14141919142335352424353524631e03242424251b1b1414191914233535242435352484242424072e101b1b14;
0x2335352424353524631e03242424251b1b14141919142335352424353524631e03242424251b1b14141919142335352424353524631e03242424251b1b141419;
0x8b00870083007f007b006f00630057004b00470043003f003b0037002b001f001300070003005603d60280ffae0026002e482e03242424251b1b1414191914;
0x323336342726222306141516323336340723153337231533010000170113010f010b0107010301f700eb00df00d300cf00cb00c700c300bf00b300a7009b008f;
0x37262223061415163233363407231533272315331733352305333523053335230506222326343536323316141706222326343536323316143726222306141516;
0x6141516323336340723153327231533073335230533352317333523050622232634353632331614170622232634353632331614272622230614151632333634;
0x32333634072315332723153307333523053335231733352305062223263435363233161417062223263435363233161427262223061415163233363437262223;
0x1231533372315330533352305333523173335230506222326343536323316141706222326343536323316142726222306141516323336343726222306141516;
0x252535472626ef262651282800ff3434f4013434d5fe1914131b1b131419ef1a13131b1b13131a2d3525253434252535ef3525253434252535472626ef262638;
0x3434252535ef3525253434252535472626ef2626af343400012828f43434d5fe1914131b1b131419ef1a13131b1b13131ac23525253434252535ef3525253434;
0x13131b1b13131ac23525253434252535ef3525253434252535472626ef2626af343400012828f43434d5fe1914131b1b131419ef1a13131b1b13131ac2352525;
0x1b1414191914141b1b141419191423353524243535242435352424353524672e2e2e56032626ef262662fe343400012828f43434d5fe1914131b1b131419ef1a;
0x35242435352424353524631e1e1e752424242424251b1b1414191914141b1b141419191423353524243535242435352424353524631e1e1e752424242424251b;
0x251b1b1414191914141b1b141419191423353524243535242435352424353524631e1e1e752424242424251b1b1414191914141b1b1414191914233535242435;
0xb700ab009f00930087007b006f006b00670063005f005b005700530047003b002f00230017000b0007000300e4024e03f6ff36002a002e2e2e792424242424;
0x22230614151632333634052315332723153325231533130000370133012f012b01270123011f011b010f010301f700eb00df00d300cf00cb00c700c300bf00bb;
0x35230506222326343536323316140706222326343536323316140706222326343536323316142526222306141516323336342726222306141516323336342526;
0x16142726222306141516323336342526222306141516323336342726222306141516323336341723153327231533272315330533352307333523053335230533;
0x36340523153325231533372315330733352305333523053335230533352305062223263435363233161405062223263435363233161407062223263435363233;
0x35363233161405062223263435363233161407062223263435363233161437262223061415163233363437262223061415163233363425262223061415163233;
0xf03525253434252535df013525253434252535cafe2626f02626df012626c0231533252315332723153307333523053335230733352305333523170622232634;
0x2535a82626ef2626f0262641012828f02828e40134341cfd3434a8021a13131b1b13131aef1914131b1b131419f01914131b1b1314191d013525253434252535;
0x341cfd3434f0012828d9fe1914131b1b131419df011a13131b1b13131aef1914131b1b131419c33525253434252535df013525253434252535ef352525343425;
0xdf011a13131b1b13131aef1914131b1b1314192d3525253434252535ef352525343425253521fe35252534342525359801262621fe2626f026269f2828e40134;
0x233535242435352424353524243535242435352424353524672e2e2e2e2ee4022626df012626ef26269f2828e4013434f4282810fe3434c91914131b1b131419;
0x1914233535242435352424353524243535242435352424353524631e1e1e1e1e7524242424242424251b1b1414191914141b1b1414191914141b1b1414191914;
0x14191914233535242435352424353524243535242435352424353524631e1e1e1e1e7524242424242424251b1b1414191914141b1b1414191914141b1b141419;
0x723153301000033002f002b002700230013000300ad021f03f5ff640007002e2e2e2e2e7524242424242424251b1b1414191914141b1b1414191914141b1b14;
0x345835355934345935355834a04646a0012315330333352305333523053335230706062223262634353636323316161437262622230606141516163233363634;
0x7d00ff3f3f3f3f3f423b24243b24243b23233b24355532325535355532325535df7dad024646678b8be8fe78784302787864223a25233c23233c23253a2240;
0x3233363425262223060614151616323336340523153325231533010000570053004f004b00470043003f003b002f002300150007000300f7010503ab007e000d;
0x28210123153325231533053335230533352305333523053335230533352305062223263435363233161405062223263435363233161427262223060614151616;
0x3c3c4ffe3c3c2b01313120013c3ca4fe201717212117172018012017172121171720e83d2a1c2f1d1d2f1c2a3d18013d2a1c2f1d1d2f1c2a3d95fe2828180128;
0x862626262626262626262a222218182020181822221818202018293d1c2f1c1c2f1c3d2a2a3d1c2f1c1c2f1c3d2a73333333f701282818012828b6fe3c3c1701;
0x1616323336340723153301000081007d007900750071006500570053004f004b0047003b002d002900250021001d0011000300140375028eff0e011300333333;
0x35230706222326343536323316143726222306061415161632333634072315330733352307333523053335230706222326343536323316143726222306061415;
0x2f1c2a3d532828b10123153307333523073335230533352307062223263435363233161437262223060614151616323336340723153307333523073335230533;
0x2a3d532828333c3c913c3c2b013c3c442017172121171720303d2a1c2f1d1d2f1c2a3d532828333c3c913c3c2b013c3c442017172121171720303d2a1c2f1d1d;
0x2f1c3d2a73288626262626262a22221818202018293d1c2f1c1c2f1c3d2a793c14032828333c3c913c3c2b013c3c442017172121171720303d2a1c2f1d1d2f1c;
0x1500070003008d02050323007e0018003c8c26262626262a22221818202018293d1c2f1c1c2f1c3d2a73288626262626262a22221818202018293d1c2f1c1c;
0x2223060614151616323336340723153325231533010000a700a3009f009b00970093008f008b007f0073006500570053004f004b00470043003f003b002f0023;
0x25231533073335230533352305333523053335230533352305062223263435363233161405062223263435363233161437262223060614151616323336342526;
0x5333523053335230506222326343536323316140506222326343536323316142726222306061415161632333634252622230606141516163233363407231533;
0x17172018012017172121171720303d2a1c2f1d1d2f1c2a3de8fe3d2a1c2f1d1d2f1c2a3d53282818012828210123153325231533053335230533352305333523;
0x2017172121171720e83d2a1c2f1d1d2f1c2a3d18013d2a1c2f1d1d2f1c2a3d532828e8fe2828323c3c17013c3c4ffe3c3c2b01313120013c3ca4fe2017172121;
0x293d1c2f1c1c2f1c3d2a2a3d1c2f1c1c2f1c3d2a793c3c3c8d02282818012828b6fe3c3c17013c3c4ffe3c3c2b01313120013c3ca4fe20171721211717201801;
0x2218182020181822221818202018293d1c2f1c1c2f1c3d2a2a3d1c2f1c1c2f1c3d2a73282828862626262626262626262a222218182020181822221818202018;
0x81007d007900750071006500570053004f004b0047003b002d002900250021001d0011000300140305038eff7e002000343434862626262626262626262a22;
0x352307231533250622232634353632331614372622230606141516163233363407231533010000d900d500d100cd00c900c500b900ab00a700a3009f009b008f;
0x22230606141516163233363405333523073335230533352337231533070622232634353632331614372622230606141516163233363405333523073335230733;
0x7333523252315330706222326343536323316143726222306061415161632333634053335230533352317333523272315330506222326343536323316143726;
0x1d1d2f1c2a3d53282821012315331733352305333523173335232723153305062223263435363233161437262223060614151616323336340533352307333523;
0x2a3d63fe3c3c9a3c3c2b013c3cb92828f52017172121171720303d2a1c2f1d1d2f1c2a3d2c013c3c9a3c3c913c3c5428283b012017172121171720303d2a1c2f;
0x3c913c3c9a3c3ce4012828f52017172121171720303d2a1c2f1d1d2f1c2a3d2c013c3cd5fe3c3c913c3ce528283b012017172121171720303d2a1c2f1d1d2f1c;
0x26053c1722221818202018293d1c2f1c1c2f1c3d2a793c14032828673c3cd5fe3c3c913c3ce528283b012017172121171720303d2a1c2f1d1d2f1c2a3df4fe3c;
0x2f1c1c2f1c3d2a9a262626262601280322221818202018293d1c2f1c1c2f1c3d2a9a262626262601280322221818202018293d1c2f1c1c2f1c3d2a9a26262626;
0x150007000300140305038eff7e002300003c8c26262626260d340322221818202018293d1c2f1c1c2f1c3d2a9a262626262601280322221818202018293d1c;
0xf700f300ef00eb00e700e300df00db00cf00c300b500a700a3009f009b00970093008f008b007f0073006500570053004f004b00470043003f003b002f0023;
0x35231706222326343536323316140506222326343536323316143726222306061415161632333634252622230606141516163233363407231533252315330100;
0x22232634353632331614272622230606141516163233363425262223060614151616323336340523153325231533173335230533352305333523053335230533;
0x14151616323336342526222306061415161632333634052315332523153317333523053335230533352305333523173335230706222326343536323316140506;
0x28180128282101231533252315330533352305333523053335230533352305333523050622232634353632331614050622232634353632331614272622230606;
0x28673c3ce0fe3131d5fe3c3cb1013c3ce9fe3c3c55201717212117172018012017172121171720303d2a1c2f1d1d2f1c2a3de8fe3d2a1c2f1d1d2f1c2a3d5328;
0xb5fd3c3cb1013c3ce9fe3c3c9131313c201717212117172018012017172121171720e83d2a1c2f1d1d2f1c2a3d18013d2a1c2f1d1d2f1c2a3d95fe2828180128;
0x3c3c2b01313120013c3ca4fe201717212117172018012017172121171720e83d2a1c2f1d1d2f1c2a3d18013d2a1c2f1d1d2f1c2a3d95fe282818012828673c3c;
0x2626262626262a222218182020181822221818202018293d1c2f1c1c2f1c3d2a2a3d1c2f1c1c2f1c3d2a793c3c3c1403282818012828b6fe3c3c17013c3c4ffe;
0x1c1c2f1c3d2a73282828862626262626262626262a222218182020181822221818202018293d1c2f1c1c2f1c3d2a2a3d1c2f1c1c2f1c3d2a7328282886262626;
0x23001f001b000f0003005603d50280ffae002c003c3c3c8c2626262626262626262a222218182020181822221818202018293d1c2f1c1c2f1c3d2a2a3d1c2f;
0xf300ef00eb00e700e300d700cb00c700c300bf00bb00af00a3009f009b009700930087007b00770073006f006b005f0053004f004b004700430037002b0027;
0x3233363417333523053335231733352307231533250622232634353632331614372622230614151632333634072315330100001f011b01170113010f010b01ff;
0x5333523070622232634353632331614372622230614151632333634072315330533352307333523053335230706222326343536323316143726222306141516;
0x37262223061415163233363407231533053335230533352307333523170622232634353632331614372622230614151632333634072315331733352307333523;
0x5333523173335230533352317062223263435363233161437262223061415163233363407231533173335230733352305333523070622232634353632331614;
0x13131a2d352525343425253547262638012315330723153305333523053335231733352317062223263435363233161437262223061415163233363407231533;
0x13131a2d3525253434252535472626e5fe343482343400013434371a13131b1b13131a2d3525253434252535fd343400ff34347d3434c1262608011a13131b1b;
0x1b13131a2d352525343425253547262663fe3434000134347e3434471a13131b1b13131a2d3525253434252535472626c134347d3434000134343c1a13131b1b;
0x1b1b13131a2d3525253434252535472626e5fe34347e343400ff3434c91a13131b1b13131a2d3525253434252535472626c134347d3434000134343c1a13131b;
0x251b1b14141919142335352424353524842424242424072e101b1b14141919142335352424353524672e56032626ee26264401343400ff34347d3434471a1313;
0x2335352424353524631e032424242424251b1b14141919142335352424353524631e032424242424251b1b14141919142335352424353524631e032424242424;
0x482e032424242424251b1b14141919142335352424353524631e032424242424251b1b14141919142335352424353524631e032424242424251b1b1414191914;
0xb700ab009f009b00970093008f008b008700830077006b005f0053004f004b00470043003f003b0037002b001f001300070003005603d60280ffae002e002e;
0x36343726222306141516323336340523153337231533010000370133012f012b01270123011f011b010f010301f700eb00e700e300df00db00d700d300cf00c3;
0x36340723153327231533173335230733352305333523173335230533352305062223263435363233161417062223263435363233161427262223061415163233;
0x35230733352305333523173335231733352305062223263435363233161417062223263435363233161427262223061415163233363437262223061415163233;
0x35231733352305062223263435363233161417062223263435363233161427262223061415163233363437262223061415163233363407231533272315330733;
0x35363233161417062223263435363233161427262223061415163233363437262223061415163233363407231533272315330733352307333523053335231733;
0x1b13131ac23525253434252535ef3525253434252535cafe2626ef26263801231533372315330533352307333523053335231733352317333523050622232634;
0x1a13131b1b13131ac23525253434252535ef3525253434252535472626ef2626c2343471282800ff343482343472013434d5fe1914131b1b131419ef1a13131b;
0x1b131419ef1a13131b1b13131ac23525253434252535ef3525253434252535472626ef26262d343482343400012828713434833434d5fe1914131b1b131419ef;
0xfe1914131b1b131419ef1a13131b1b13131ac23525253434252535ef3525253434252535472626ef26262d343482343400012828713434833434d5fe1914131b;
0x242424251b1b1414191914141b1b141419191423353524243535242435352424353524672e2e2e56032626ef2626e4fe343482343400012828713434833434d5;
0x35352424353524631e1e1e75242424242424242424251b1b1414191914141b1b141419191423353524243535242435352424353524631e1e1e75242424242424;
0x14141b1b141419191423353524243535242435352424353524631e1e1e75242424242424242424251b1b1414191914141b1b1414191914233535242435352424;
0x6f006b00670063005f005b005700530047003b002f00230017000b0007000300e4024e03f6ff36003300002e2e2e79242424242424242424251b1b14141919;
0x14f014b01470143013f013b013701330127011b010f010301f700eb00e700e300df00db00d700d300cf00cb00c700c300b700ab009f00930087007b00770073;
0x26343536323316142526222306141516323336342726222306141516323336342526222306141516323336340523153327231533252315331300005b01570153;
0x27231533272315330533352305333523053335230533352307333523073335230533352317062223263435363233161407062223263435363233161407062223;
0x5062223263435363233161407062223263435363233161427262223061415163233363425262223061415163233363427262223061415163233363417231533;
0x25262223061415163233363417231533272315332523153305333523073335230533352305333523053335230533352317333523050622232634353632331614;
0x5333523070622232634353632331614050622232634353632331614070622232634353632331614372622230614151632333634372622230614151632333634;
0x25253434252535df013525253434252535cafe2626f02626df012626c02315332523153327231533053335231733352305333523073335230733352305333523;
0x134349ffe2828e40134348efe3434f03434823434f0012828b81a13131b1b13131aef1914131b1b131419f01914131b1b1314191d013525253434252535f035;
0x14131b1b131419df011a13131b1b13131aef1914131b1b131419c33525253434252535df013525253434252535ef3525253434252535a82626ef2626f02626b2;
0x253434252535ef352525343425253521fe3525253434252535a92626f02626df01262672fe28287e3434620234348efe34348efe3434f001282871343468fe19;
0x26df012626ef2626e3fe34347e2828e401343483343471282810fe343472013434a91914131b1b131419df011a13131b1b13131aef1914131b1b1314192d3525;
0x24242424242424251b1b1414191914141b1b1414191914141b1b1414191914233535242435352424353524243535242435352424353524672e2e2e2e2ee40226;
0x242424251b1b1414191914141b1b1414191914141b1b1414191914233535242435352424353524243535242435352424353524631e1e1e1e1e75242424242424;
0x1b1b1414191914141b1b1414191914141b1b1414191914233535242435352424353524243535242435352424353524631e1e1e1e1e7524242424242424242424;
0x23112313352315132315330717373317372733352313352301000021001e001b005303ec02000064000300002e2e2e2e2e752424242424242424242424242425;
0x1b2fe91026ffd4e013f3fb2fe3f572c83832c573f4e013f04016d3768fe376deb5284468452ef5235d05a2d8204832c59cf3552ef5301330321033333132311;
0x233435023e343526222306061337363233161415020e14153233363627070622233435023e343526222306060100004300210031033401100164000200f6fe0a;
0x471931102405160f12161d1639240e341a0b162d0a0b15161d16471931102405160f12161d1639240e341a340137363233161415020e14153233363627070622;
0x4040b0a070d141e1840131524070d100912151c132321050796fe04040b0a070d141e1840131524070d100912151c13232105075202162d0a0b15161d16;
0xe6e6e6469696969646e646969696966c02233533033533153335333523353335233523152335231523153315231533150100001f001b00200302030000640002;
0x2637363435022e22230606173736323316161415060627262500004e00420036002a03e201f6ff6400030000de19fecacaca3fde3ffafafafa3fde3fca2003e6;
0x224f24112d2039294354a201262223061415163233363411262223061415163233363403171607060614151616323336362707062223263435023e1716372726;
0x26230f26242b562e3b19e919121219191212191912121919121219b342382a4f331f493d366024321d47262c312a4425320f3e092b1f31481f323b1d28692d2f;
0x3d601000064000100001919121219191250fe19191212191912490116302c60673924432b37232820232d2f295052283d4b05335a26376e39303b210c302d2b;
0x3227412578784682820519062b464833213822980115151616323336363435022e3533352311231123153315373232331614150622232626343501000026002a;
0x18efed60111231107213521010000070003002003d6010000640002000d2e492b284c38324a2e07343f5a01a6fe3f6b01413b3a381c2f1d0e7b023254333354;
0x319292313e82026ffd5ced0260e84f319292314bd0465c4e02373307173727071723112311070100000d0037034e02000064000100bb0245fd653fe102469672;
0x25542f364f0c3d02dffc2003538d3721374423282e4b1f30633546c1013537363635032e0717161607060611231101000013002003c101ffff64000100005d45;
0x16141506222323263405211716323336363435262622230606272626222323020e140100003100270019009501b20337006400030000a2146f500d3340421b35;
0x602d4801093c5c395c395c3c09401d1a141a1d1f1814181f71fd58020837383337151537331a270e11486c465c43694825b203373636323333021e1736323333;
0x3005e002400010009040100030000005e000000090401000300ba000f000000002c503434502c080e0e15130a0a1322161c1724161a2a1907063156363252;
0x9040100030070012e000600090401000300080168000500090401000300d4003400040009040100030090004400030009040100030082000e000200090401;
0x23c000c0009040100030076023e000b00090401000300340242000a000904010003000c0228000900090401000300e2012a0008000904010003009e01440007;
0x67006f006f00470020003700310030003200200074006800670069007200790070006f004300860534000e00090401000300f00296020d00090401000300b4;
0x6f0074006f004e002e0064006500760072006500730065005200200073007400680067006900520020006c006c00410020002e0063006e004900200065006c;
0x3b0047004f004f0047003b003000300030002e003200720061006c007500670065005200420020007200610065006e0069004c00200073006e006100530020;
0x73006e006100530020006f0074006f004e00720061006c0075006700650052002d0042007200610065006e0069004c0073006e00610053006f0074006f004e;
0x47003b003000300030002e00320020006e006f0069007300720065005600720061006c0075006700650052002000420020007200610065006e0069004c0020;
0x33003900390066006500300039003a00350031003900300037003100300032003a0065006300720075006f0073002d006f0074006f006e003b0047004f004f;
0x6f0074006f004e00720061006c0075006700650052002d0042007200610065006e0069004c0073006e00610053006f0074006f004e00300063003700380033;
0x6f004d002e0063006e004900200065006c0067006f006f004700200066006f0020006b00720061006d00650064006100720074002000610020007300690020;
0x6900730065004400200065007000790074006f006e006f004d002e0063006e004900200067006e006900670061006d004900200065007000790074006f006e;
0x6900730065006400200065007000790074006f006e006f004d002000790062002000640065006e00670069007300650044006d0061006500540020006e0067;
0x650067002f006d006f0063002e0065006c0067006f006f0067002e007700770077002f002f003a0070007400740068002e006d0061006500740020006e0067;
0x73002f006d006f0063002e0065007000790074006f006e006f006d002e007700770077002f002f003a0070007400740068002f006f0074006f006e002f0074;
0x6e006500630069006c0020007300690020006500720061007700740066006f005300200074006e006f004600200073006900680054006f0069006400750074;
0x6500630069004c00200074006e006f00460020006e00650070004f0020004c0049005300200065006800740020007200650064006e00750020006400650073;
0x740066006f005300200074006e006f0046002000730069006800540020002e0031002e00310020006e006f006900730072006500560020002c00650073006e;
0x53004900200053004100220020006e00610020006e006f00200064006500740075006200690072007400730069006400200073006900200065007200610077;
0x4300200052004f00200053004500490054004e00410052005200410057002000540055004f00480054004900570020002c0053004900530041004200200022;
0x78006500200072006500680074006900650020002c0044004e0049004b00200059004e004100200046004f00200053004e004f0049005400490044004e004f;
0x70004f0020004c00490053002000650068007400200065006500530020002e006400650069006c0070006d006900200072006f002000730073006500720070;
0x630069006600690063006500700073002000650068007400200072006f0066002000650073006e006500630069004c00200074006e006f00460020006e0065;
0x740069006d0069006c00200064006e006100200073006e006f0069007300730069006d0072006500700020002c00650067006100750067006e0061006c0020;
0x690068007400200066006f0020006500730075002000720075006f007900200067006e0069006e007200650076006f006700200073006e006f006900740061;
0x73002e0073007400700069007200630073002f002f003a0070007400740068002e006500720061007700740066006f005300200074006e006f004600200073;
0x2040113021202110200001101000000000000000000000000000000000000000032009cff00000000000002004c0046004f002f00670072006f002e006c0069;
0x233023202310230022f022e022d022c022b022a0229022802270226022502240223022202210220021f021e021d021c021b021a021902180217021602150214;
0x253025202510250024f024e024d024c024b024a0249024802470246024502440243024202410240023f023e023d023c023b023a023902380237023602350234;
0x273027202710270026f026e026d026c026b026a0269026802670266026502640263026202610260025f025e025d025c025b025a025902580257025602550254;
0x293029202910290028f028e028d028c028b028a0289028802870286028502840283028202810280027f027e027d027c027b027a027902780277027602750274;
0x2b302b202b102b002af02ae02ad02ac02ab02aa02a902a802a702a602a502a402a302a202a102a0029f029e029d029c029b029a029902980297029602950294;
0x2d302d202d102d002cf02ce02cd02cc02cb02ca02c902c802c702c602c502c402c302c202c102c002bf02be02bd02bc02bb02ba02b902b802b702b602b502b4;
0x2f302f202f102f002ef02ee02ed02ec02eb02ea02e902e802e702e602e502e402e302e202e102e002df02de02dd02dc02db02da02d902d802d702d602d502d4;
0x313031203110310030f030e030d030c030b030a030903080307030603050304030303020301030003ff02fe02fd02fc02fb02fa02f902f802f702f602f502f4;
0x303031696e75083130303031696e75083030303031696e750830413030696e75075243024c4c554e041f031e031d031c031b031a031903180317031603150314;
0x30303031696e75083830303031696e75083730303031696e75083630303031696e75083530303031696e75083430303031696e75083330303031696e75083230;
0x3131303031696e75083031303031696e75084630303031696e75084530303031696e75084430303031696e75084230303031696e75084130303031696e750839;
0x83831303031696e75083731303031696e75083631303031696e75083531303031696e75083431303031696e75083331303031696e75083231303031696e7508;
0x75084631303031696e75084531303031696e75084431303031696e75084331303031696e75084231303031696e75084131303031696e75083931303031696e75;
0x6e75083632303031696e75083532303031696e75083432303031696e75083332303031696e75083232303031696e75083132303031696e75083032303031696e;
0x696e75084532303031696e75084432303031696e75084332303031696e75084232303031696e75084132303031696e75083932303031696e7508383230303169;
0x31696e75083533303031696e75083433303031696e75083333303031696e75083233303031696e75083133303031696e75083033303031696e75084632303031;
0x3031696e75084433303031696e75084333303031696e75084133303031696e75083933303031696e75083833303031696e75083733303031696e750836333030;
0x303031696e75083534303031696e75083434303031696e75083334303031696e75083234303031696e75083134303031696e75083034303031696e7508463330;
0x34303031696e75084334303031696e75084234303031696e75084134303031696e75083934303031696e75083834303031696e75083734303031696e75083634;
0x3635303031696e75083535303031696e75083435303031696e75083335303031696e75083235303031696e75083135303031696e75083035303031696e750844;
0x84435303031696e75084335303031696e75084235303031696e75084135303031696e75083935303031696e75083835303031696e75083735303031696e7508;
0x75083638303031696e75083538303031696e75083438303031696e75083338303031696e75083238303031696e75083138303031696e75083038303031696e75;
0x6e75084438303031696e75084338303031696e75084238303031696e75084138303031696e75083938303031696e75083838303031696e75083738303031696e;
0x696e75083439303031696e75083339303031696e75083239303031696e75083139303031696e75083039303031696e75084638303031696e7508453830303169;
0x31696e75084239303031696e75084139303031696e75083939303031696e75083839303031696e75083739303031696e75083639303031696e75083539303031;
0x3031696e75083241303031696e75083141303031696e75083041303031696e75084639303031696e75084539303031696e75084439303031696e750843393030;
0x303031696e75083941303031696e75083841303031696e75083741303031696e75083641303031696e75083541303031696e75083441303031696e7508334130;
0x42303031696e75083042303031696e75084641303031696e75084541303031696e75084441303031696e75084341303031696e75084241303031696e75084141;
0x3842303031696e75083742303031696e75083642303031696e75083542303031696e75083442303031696e75083342303031696e75083242303031696e750831;
0x84642303031696e75084542303031696e75084442303031696e75084342303031696e75084242303031696e75084142303031696e75083942303031696e7508;
0x75083643303031696e75083543303031696e75083443303031696e75083343303031696e75083243303031696e75083143303031696e75083043303031696e75;
0x6e75084443303031696e75084343303031696e75084243303031696e75084143303031696e75083943303031696e75083843303031696e75083743303031696e;
0x696e75083444303031696e75083344303031696e75083244303031696e75083144303031696e75083044303031696e75084643303031696e7508454330303169;
0x31696e75084244303031696e75084144303031696e75083944303031696e75083844303031696e75083744303031696e75083644303031696e75083544303031;
0x3031696e75083245303031696e75083145303031696e75083045303031696e75084644303031696e75084544303031696e75084444303031696e750843443030;
0x303031696e75083945303031696e75083845303031696e75083745303031696e75083645303031696e75083545303031696e75083445303031696e7508334530;
0x46303031696e75083046303031696e75084645303031696e75084545303031696e75084445303031696e75084345303031696e75084245303031696e75084145;
0x3846303031696e75083746303031696e75083646303031696e75083546303031696e75083446303031696e75083346303031696e75083246303031696e750831;
0x83830313031696e75083730313031696e75083230313031696e75083130313031696e75083030313031696e75084146303031696e75083946303031696e7508;
0x75084630313031696e75084530313031696e75084430313031696e75084330313031696e75084230313031696e75084130313031696e75083930313031696e75;
0x6e75083631313031696e75083531313031696e75083431313031696e75083331313031696e75083231313031696e75083131313031696e75083031313031696e;
0x696e75084431313031696e75084331313031696e75084231313031696e75084131313031696e75083931313031696e75083831313031696e7508373131303169;
0x31696e75083432313031696e75083332313031696e75083232313031696e75083132313031696e75083032313031696e75084631313031696e75084531313031;
0x3031696e75084232313031696e75084132313031696e75083932313031696e75083832313031696e75083732313031696e75083632313031696e750835323130;
0x313031696e75083233313031696e75083133313031696e75083033313031696e75084632313031696e75084532313031696e75084432313031696e7508433231;
0x33313031696e75084333313031696e75084233313031696e75084133313031696e75083933313031696e75083833313031696e75083733313031696e75083333;
0x32303030317506313030303175063030303031750630323030696e750744303030696e750730303030696e75074633313031696e75084533313031696e750844;
0x6423030303175064130303031750639303030317506383030303175063730303031750636303030317506353030303175063430303031750633303030317506;
0x75063531303031750634313030317506333130303175063231303031750631313030317506303130303175064630303031750645303030317506443030303175;
0x31750645313030317506443130303175064331303031750642313030317506413130303175063931303031750638313030317506373130303175063631303031;
0x30317506383230303175063632303031750635323030317506343230303175063332303031750632323030317506313230303175063032303031750646313030;
0x30303175063133303031750630333030317506463230303175064532303031750644323030317506433230303175064232303031750641323030317506393230;
0x33303031750641333030317506393330303175063833303031750637333030317506363330303175063533303031750634333030317506333330303175063233;
0x36343030317506353430303175063434303031750633343030317506323430303175063134303031750630343030317506463330303175064433303031750643;
0x6313530303175063035303031750644343030317506433430303175064234303031750641343030317506393430303175063834303031750637343030317506;
0x75064135303031750639353030317506383530303175063735303031750636353030317506353530303175063435303031750633353030317506323530303175;
0x31750635383030317506343830303175063338303031750632383030317506313830303175063038303031750644353030317506433530303175064235303031;
0x30317506453830303175064438303031750643383030317506423830303175064138303031750639383030317506383830303175063738303031750636383030;
0x30303175063739303031750636393030317506353930303175063439303031750633393030317506323930303175063139303031750630393030317506463830;
0x41303031750630413030317506463930303175064539303031750644393030317506433930303175064239303031750641393030317506393930303175063839;
0x41413030317506394130303175063841303031750637413030317506364130303175063541303031750634413030317506334130303175063241303031750631;
0x6334230303175063242303031750631423030317506304230303175064641303031750645413030317506444130303175064341303031750642413030317506;
0x75064342303031750642423030317506414230303175063942303031750638423030317506374230303175063642303031750635423030317506344230303175;
0x31750635433030317506344330303175063343303031750632433030317506314330303175063043303031750646423030317506454230303175064442303031;
0x30317506454330303175064443303031750643433030317506424330303175064143303031750639433030317506384330303175063743303031750636433030;
0x30303175063744303031750636443030317506354430303175063444303031750633443030317506324430303175063144303031750630443030317506464330;
0x45303031750630453030317506464430303175064544303031750644443030317506434430303175064244303031750641443030317506394430303175063844;
0x41453030317506394530303175063845303031750637453030317506364530303175063545303031750634453030317506334530303175063245303031750631;
0x6334630303175063246303031750631463030317506304630303175064645303031750645453030317506444530303175064345303031750642453030317506;
0x75063130313031750630303130317506414630303175063946303031750638463030317506374630303175063646303031750635463030317506344630303175;
0x31750645303130317506443031303175064330313031750642303130317506413031303175063930313031750638303130317506373031303175063230313031;
0x30317506373131303175063631313031750635313130317506343131303175063331313031750632313130317506313131303175063031313031750646303130;
0x31303175063032313031750646313130317506453131303175064431313031750643313130317506423131303175064131313031750639313130317506383131;
0x32313031750639323130317506383231303175063732313031750636323130317506353231303175063432313031750633323130317506323231303175063132;
0x33333130317506323331303175063133313031750630333130317506463231303175064532313031750644323130317506433231303175064232313031750641;
0xa463331303175064533313031750644333130317506433331303175064233313031750641333130317506393331303175063833313031750637333130317506;
0x6f4e2f20656d614e746e6f462f20726f7470697263736544746e6f462f20657079542f203c3c0a6a626f20302033310a6a626f646e650a6d6165727473646e65;
0x203936303120746e656373412f205d303230312030393831203832312d20385b20786f4242746e6f462f2072616c756765522d427261656e694c736e61536f74;
0x676965487061432f2034207367616c462f203020656c676e4163696c6174492f205220302032312032656c6946746e6f462f203339322d20746e65637365442f;
0x3e2036353235206874676e654c2f203c3c0a6a626f20302034310a6a626f646e650a3e3e20303820486d6574532f20303820566d6574532f2030323031207468;
0x696765620a6e6967656220746369642032310a6e6967656220656372756f736572646e696620746553636f72502f2074696e494449432f0a6d61657274730a3e;
0x6c707075532f20295343552820676e69726564724f2f202965626f6441282079727473696765522f203c3c0a6f666e496d65747379534449432f0a70616d636e;
0x6665642032206570795470614d432f0a666564205343552d797469746e6564492d65626f64412f20656d614e70614d432f0a666564203e3e203020746e656d65;
0x6e69676562203030310a65676e6172656361707365646f63646e650a3e666666663c203e303030303c0a65676e6172656361707365646f636e6967656220310a;
0x3c0a3e306130303c203e343030303c0a3e303230303c203e333030303c0a3e643030303c203e323030303c0a3e303030303c203e313030303c0a726168636662;
0x3038643c203e383030303c0a3e32306364303038643c203e373030303c0a3e31306364303038643c203e363030303c0a3e30306364303038643c203e35303030;
0x30303c0a3e36306364303038643c203e623030303c0a3e35306364303038643c203e613030303c0a3e34306364303038643c203e393030303c0a3e3330636430;
0x64303038643c203e663030303c0a3e39306364303038643c203e653030303c0a3e38306364303038643c203e643030303c0a3e37306364303038643c203e6330;
0x333130303c0a3e65306364303038643c203e323130303c0a3e64306364303038643c203e313130303c0a3e62306364303038643c203e303130303c0a3e613063;
0x316364303038643c203e363130303c0a3e31316364303038643c203e353130303c0a3e30316364303038643c203e343130303c0a3e66306364303038643c203e;
0x203e613130303c0a3e35316364303038643c203e393130303c0a3e34316364303038643c203e383130303c0a3e33316364303038643c203e373130303c0a3e32;
0x3e39316364303038643c203e643130303c0a3e38316364303038643c203e633130303c0a3e37316364303038643c203e623130303c0a3e36316364303038643c;
0x643c203e313230303c0a3e63316364303038643c203e303230303c0a3e62316364303038643c203e663130303c0a3e61316364303038643c203e653130303c0a;
0x3c0a3e30326364303038643c203e343230303c0a3e66316364303038643c203e333230303c0a3e65316364303038643c203e323230303c0a3e64316364303038;
0x3038643c203e383230303c0a3e33326364303038643c203e373230303c0a3e32326364303038643c203e363230303c0a3e31326364303038643c203e35323030;
0x30303c0a3e38326364303038643c203e623230303c0a3e36326364303038643c203e613230303c0a3e35326364303038643c203e393230303c0a3e3432636430;
0x64303038643c203e663230303c0a3e62326364303038643c203e653230303c0a3e61326364303038643c203e643230303c0a3e39326364303038643c203e6332;
0x333330303c0a3e66326364303038643c203e323330303c0a3e65326364303038643c203e313330303c0a3e64326364303038643c203e303330303c0a3e633263;
0x336364303038643c203e363330303c0a3e32336364303038643c203e353330303c0a3e31336364303038643c203e343330303c0a3e30336364303038643c203e;
0x203e613330303c0a3e36336364303038643c203e393330303c0a3e35336364303038643c203e383330303c0a3e34336364303038643c203e373330303c0a3e33;
0x3e61336364303038643c203e643330303c0a3e39336364303038643c203e633330303c0a3e38336364303038643c203e623330303c0a3e37336364303038643c;
0x643c203e313430303c0a3e66336364303038643c203e303430303c0a3e64336364303038643c203e663330303c0a3e63336364303038643c203e653330303c0a;
0x3c0a3e33346364303038643c203e343430303c0a3e32346364303038643c203e333430303c0a3e31346364303038643c203e323430303c0a3e30346364303038;
0x3038643c203e383430303c0a3e36346364303038643c203e373430303c0a3e35346364303038643c203e363430303c0a3e34346364303038643c203e35343030;
0x30303c0a3e61346364303038643c203e623430303c0a3e39346364303038643c203e613430303c0a3e38346364303038643c203e393430303c0a3e3734636430;
0x64303038643c203e663430303c0a3e64346364303038643c203e653430303c0a3e63346364303038643c203e643430303c0a3e62346364303038643c203e6334;
0x333530303c0a3e33356364303038643c203e323530303c0a3e32356364303038643c203e313530303c0a3e31356364303038643c203e303530303c0a3e303563;
0x356364303038643c203e363530303c0a3e36356364303038643c203e353530303c0a3e35356364303038643c203e343530303c0a3e34356364303038643c203e;
0x203e613530303c0a3e61356364303038643c203e393530303c0a3e39356364303038643c203e383530303c0a3e38356364303038643c203e373530303c0a3e37;
0x3e30386364303038643c203e643530303c0a3e64356364303038643c203e633530303c0a3e63356364303038643c203e623530303c0a3e62356364303038643c;
0x643c203e313630303c0a3e33386364303038643c203e303630303c0a3e32386364303038643c203e663530303c0a3e31386364303038643c203e653530303c0a;
0x650a3e37386364303038643c203e343630303c0a3e36386364303038643c203e333630303c0a3e35386364303038643c203e323630303c0a3e34386364303038;
0x30303c0a3e39386364303038643c203e363630303c0a3e38386364303038643c203e353630303c0a7261686366626e69676562203030310a726168636662646e;
0x64303038643c203e613630303c0a3e63386364303038643c203e393630303c0a3e62386364303038643c203e383630303c0a3e61386364303038643c203e3736;
0x653630303c0a3e30396364303038643c203e643630303c0a3e66386364303038643c203e633630303c0a3e65386364303038643c203e623630303c0a3e643863;
0x396364303038643c203e313730303c0a3e33396364303038643c203e303730303c0a3e32396364303038643c203e663630303c0a3e31396364303038643c203e;
0x203e353730303c0a3e37396364303038643c203e343730303c0a3e36396364303038643c203e333730303c0a3e35396364303038643c203e323730303c0a3e34;
0x3e62396364303038643c203e383730303c0a3e61396364303038643c203e373730303c0a3e39396364303038643c203e363730303c0a3e38396364303038643c;
0x643c203e633730303c0a3e65396364303038643c203e623730303c0a3e64396364303038643c203e613730303c0a3e63396364303038643c203e393730303c0a;
0x3c0a3e32616364303038643c203e663730303c0a3e31616364303038643c203e653730303c0a3e30616364303038643c203e643730303c0a3e66396364303038;
0x3038643c203e333830303c0a3e35616364303038643c203e323830303c0a3e34616364303038643c203e313830303c0a3e33616364303038643c203e30383030;
0x30303c0a3e39616364303038643c203e363830303c0a3e38616364303038643c203e353830303c0a3e37616364303038643c203e343830303c0a3e3661636430;
0x64303038643c203e613830303c0a3e63616364303038643c203e393830303c0a3e62616364303038643c203e383830303c0a3e61616364303038643c203e3738;
0x653830303c0a3e30626364303038643c203e643830303c0a3e66616364303038643c203e633830303c0a3e65616364303038643c203e623830303c0a3e646163;
0x626364303038643c203e313930303c0a3e33626364303038643c203e303930303c0a3e32626364303038643c203e663830303c0a3e31626364303038643c203e;
0x203e353930303c0a3e37626364303038643c203e343930303c0a3e36626364303038643c203e333930303c0a3e35626364303038643c203e323930303c0a3e34;
0x3e62626364303038643c203e383930303c0a3e61626364303038643c203e373930303c0a3e39626364303038643c203e363930303c0a3e38626364303038643c;
0x643c203e633930303c0a3e65626364303038643c203e623930303c0a3e64626364303038643c203e613930303c0a3e63626364303038643c203e393930303c0a;
0x3c0a3e32636364303038643c203e663930303c0a3e31636364303038643c203e653930303c0a3e30636364303038643c203e643930303c0a3e66626364303038;
0x3038643c203e336130303c0a3e35636364303038643c203e326130303c0a3e34636364303038643c203e316130303c0a3e33636364303038643c203e30613030;
0x30303c0a3e39636364303038643c203e366130303c0a3e38636364303038643c203e356130303c0a3e37636364303038643c203e346130303c0a3e3663636430;
0x64303038643c203e616130303c0a3e63636364303038643c203e396130303c0a3e62636364303038643c203e386130303c0a3e61636364303038643c203e3761;
0x656130303c0a3e30646364303038643c203e646130303c0a3e66636364303038643c203e636130303c0a3e65636364303038643c203e626130303c0a3e646363;
0x646364303038643c203e316230303c0a3e33646364303038643c203e306230303c0a3e32646364303038643c203e666130303c0a3e31646364303038643c203e;
0x203e356230303c0a3e37646364303038643c203e346230303c0a3e36646364303038643c203e336230303c0a3e35646364303038643c203e326230303c0a3e34;
0x3e62646364303038643c203e386230303c0a3e61646364303038643c203e376230303c0a3e39646364303038643c203e366230303c0a3e38646364303038643c;
0x643c203e636230303c0a3e65646364303038643c203e626230303c0a3e64646364303038643c203e616230303c0a3e63646364303038643c203e396230303c0a;
0x3c0a3e32656364303038643c203e666230303c0a3e31656364303038643c203e656230303c0a3e30656364303038643c203e646230303c0a3e66646364303038;
0x3038643c203e336330303c0a3e35656364303038643c203e326330303c0a3e34656364303038643c203e316330303c0a3e33656364303038643c203e30633030;
0x30303c0a3e39656364303038643c203e366330303c0a3e38656364303038643c203e356330303c0a3e37656364303038643c203e346330303c0a3e3665636430;
0x3e396330303c0a7261686366626e696765622032370a726168636662646e650a3e62656364303038643c203e386330303c0a3e61656364303038643c203e3763;
0x66656364303038643c203e636330303c0a3e65656364303038643c203e626330303c0a3e64656364303038643c203e616330303c0a3e63656364303038643c20;
0x3c203e306430303c0a3e32666364303038643c203e666330303c0a3e31666364303038643c203e656330303c0a3e30666364303038643c203e646330303c0a3e;
0xa3e36666364303038643c203e336430303c0a3e35666364303038643c203e326430303c0a3e34666364303038643c203e316430303c0a3e3366636430303864;
0x38643c203e376430303c0a3e39666364303038643c203e366430303c0a3e38666364303038643c203e356430303c0a3e37666364303038643c203e346430303c;
0x303c0a3e32306464303038643c203e616430303c0a3e31306464303038643c203e396430303c0a3e30306464303038643c203e386430303c0a3e616663643030;
0x303038643c203e656430303c0a3e39306464303038643c203e646430303c0a3e38306464303038643c203e636430303c0a3e37306464303038643c203e626430;
0x6530303c0a3e64306464303038643c203e316530303c0a3e63306464303038643c203e306530303c0a3e62306464303038643c203e666430303c0a3e61306464;
0x6464303038643c203e356530303c0a3e30316464303038643c203e346530303c0a3e66306464303038643c203e336530303c0a3e65306464303038643c203e32;
0x3e396530303c0a3e34316464303038643c203e386530303c0a3e33316464303038643c203e376530303c0a3e32316464303038643c203e366530303c0a3e3131;
0x38316464303038643c203e636530303c0a3e37316464303038643c203e626530303c0a3e36316464303038643c203e616530303c0a3e35316464303038643c20;
0x3c203e306630303c0a3e62316464303038643c203e666530303c0a3e61316464303038643c203e656530303c0a3e39316464303038643c203e646530303c0a3e;
0xa3e66316464303038643c203e336630303c0a3e65316464303038643c203e326630303c0a3e64316464303038643c203e316630303c0a3e6331646430303864;
0x38643c203e376630303c0a3e32326464303038643c203e366630303c0a3e31326464303038643c203e356630303c0a3e30326464303038643c203e346630303c;
0x303c0a3e36326464303038643c203e616630303c0a3e35326464303038643c203e396630303c0a3e34326464303038643c203e386630303c0a3e333264643030;
0x303038643c203e656630303c0a3e39326464303038643c203e646630303c0a3e38326464303038643c203e636630303c0a3e37326464303038643c203e626630;
0x3031303c0a3e64326464303038643c203e313031303c0a3e63326464303038643c203e303031303c0a3e62326464303038643c203e666630303c0a3e61326464;
0x6464303038643c203e353031303c0a3e30336464303038643c203e343031303c0a3e66326464303038643c203e333031303c0a3e65326464303038643c203e32;
0x3e393031303c0a3e37336464303038643c203e383031303c0a3e33336464303038643c203e373031303c0a3e32336464303038643c203e363031303c0a3e3133;
0x62336464303038643c203e633031303c0a3e61336464303038643c203e623031303c0a3e39336464303038643c203e613031303c0a3e38336464303038643c20;
0x3c203e303131303c0a3e65336464303038643c203e663031303c0a3e64336464303038643c203e653031303c0a3e63336464303038643c203e643031303c0a3e;
0x736572656e696665642070614d432f2074636964746e657272756320656d614e70614d430a70616d63646e650a726168636662646e650a3e6633646430303864;
0x746275532f20746e6f462f20657079542f203c3c0a6a626f20302035310a6a626f646e650a6d6165727473646e650a646e650a646e650a706f7020656372756f;
0x205220302034312065646f63696e556f542f2072616c756765522d427261656e694c736e61536f746f4e2f20746e6f46657361422f2030657079542f20657079;
0x20657079746275532f20746e6f462f20657079542f203c3c5b2073746e6f46746e61646e65637365442f20482d797469746e6564492f20676e69646f636e452f;
0x206f666e496d65747379534449432f2072616c756765522d427261656e694c736e61536f746f4e2f20746e6f46657361422f203265707954746e6f464449432f;
0x746e6f462f203e3e203020746e656d656c707075532f2029797469746e6564492820676e69726564724f2f202965626f6441282079727473696765522f203c3c;
0x3520383435203231372030333620303137203339362030363220303632203036322030203030365b20305b20572f2052203020333120726f7470697263736544;
0x36203531382039343720333237203234362031333720313837203532382032383920363236203634372039363620343037203235352033393620313837203030;
0x35203039372035323820353935203734372030303620303137203331352037303520393636203735382030353620333137203938352030303820363036203134;
0x36203033372037303520303137203037362030323620353036203437352035303720323436203438362036313720373035203730362034383520383236203736;
0x20323436203931372034353720383937203330303120353537203237372038303620323937203236362033353620333635203737352035373620323735203936;
0x20303536203137382033323920313938203330372033363920343038203036352033393720373036203336352037373720343435203235372030333720303537;
0x20323637203138372033303820333038203039372030393720393432312036323131203333323120333630312037303620373036203237372030353920393637;
0x20393037203537352031363720383935203237362037373720313737203833352034343520303235203535372030383720303935203032372032363720323637;
0x34392031323820373539203032392035373720383432312036383720343435203733392031303720393438203437323120393638203035372036363820303938;
0x32323120303439203039392039323331203935362038323031203031362038323720303136312030313431203933343120343032312037393231203537372038;
0x35343820373138312037303431203730333120333038203039372030323920303932312033363131203039362034303231203830372031323620373630312030;
0x30333031203037313120383635203035372035373031203030303120353238203031393120343039312034303931203836352035313420383635203530313120;
0x35393620383339203637372033383920393931312037383231203335303120343830312039313131203433363120343739203135333120343639203938303120;
0x35353920313631312037383620393935203137392034393131203135303120393139203136333120343739203330372035343820383637203937372033343620;
0x30392030303920303039203030392034323520383434203037332037303031203432313120333338203432392038363331203438333120333639203139333120;
0x30392030303920303039203030392030303920303039203030392030303920303039203030392030303920303039203030392030303920303039203030392030;
0x30392030303920303039203030392030303920303039203030392030303920303039203030392030303920303039203030392030303920303039203030392030;
0x39362030373520303735203238352030373820383034203834382030303920303039203030392030303920303039203030392030303920303039203030392030;
0x372e300a6d61657274730a3e3e20353432206874676e654c2f203c3c0a6a626f20302036310a6a626f646e650a3e3e205d3e3e205d5d36343031203934352030;
0x373330303c0a6d5420302e303220302e303120302e35312d2030203020302e35310a665420312030662f0a54420a6d63203020302035372e302d203020302035;
0x35312d2030203020302e35310a665420312031662f0a54420a54450a6a54203e3035303030353030433430304334303030303030373530303635303032373030;
0x20302e35312d2030203020302e35310a665420312032662f0a54420a54450a6a54203e4133303034363030323530303c0a6d5420302e303420302e303120302e;
0x646e650a6d6165727473646e650a0a54450a6a54203e313130303733303034323030373130303234303033303030413430303c0a6d5420302e303420302e3536;
0x6964654d2f205220302036312073746e65746e6f432f20522030203120746e657261502f20656761502f20657079542f203c3c0a6a626f20302037310a6a626f;
0x657274730a3e3e20313031206874676e654c2f203c3c0a6a626f20302038310a6a626f646e650a3e3e205d352e37332d20302e353031203020305b20786f4261;
0x302e310a660a657220302e3320302e3420302e3120302e300a677220302e3120302e3020302e300a6d63203020302035372e302d203020302035372e300a6d61;
0x6f20302039310a6a626f646e650a6d6165727473646e650a0a660a657220302e3220302e3120302e3020302e300a73672030612f0a677220302e3020302e3020;
0x203020305b20786f42616964654d2f205220302038312073746e65746e6f432f20522030203120746e657261502f20656761502f20657079542f203c3c0a6a62;
0x30303020353130303030303030300a206620353335353620303030303030303030300a303220300a666572780a6a626f646e650a3e3e205d302e332d20302e33;
0x6e20303030303020323133303030303030300a206e20303030303020333332303030303030300a206e20303030303020343831303030303030300a206e203030;
0x30300a206e20303030303020353335303730303030300a206e20303030303020333235363630303030300a206e20303030303020323133363630303030300a20;
0x3930303030300a206e20303030303020363637343930303030300a206e20303030303020373735343930303030300a206e203030303030203733393137303030;
0x363239353631303030300a206e20303030303020333137353631303030300a206e20303030303020303038303031303030300a206e2030303030302039323139;
0x30303020363939323731303030300a206e20303030303020393936323731303030300a206e20303030303020353332313731303030300a206e20303030303020;
0x3220657a69532f203c3c0a72656c696172740a206e20303030303020323432333731303030300a206e20303030303020393830333731303030300a206e203030;
0x464f4525250a3233333337310a6665727874726174730a3e3e205220302033206f666e492f20522030203220746f6f522f2030].
