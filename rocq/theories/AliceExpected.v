(** The other test of the repository that compares whole files, tests/alice.rs: what the model of
    text_plain.rs makes of tests/alice.txt in [f32] is, byte by byte, the file tests/alice.pdf that the real
    program wrote. *)
From Coq Require Import QArith.
From Verif Require Import Base FontParsing FontCmap PdfObject PdfObjectSpec PdfConvert Text BoxTree TextPlain Arith32 Float32Print TextPlainArith VeraFile PdfExpected.
Local Open Scope N_scope.

(** tests/alice.txt *)
Definition alice_txt : bytes := unpack 5244 [
0x7263209980e221726573756f6972756320646e6120726573756f697275439880e20a0a737261655420666f206c6f6f5020656854202e49492052455450414843;
0x75712065687320746e656d6f6d2065687420726f662074616874202c646573697270727573206863756d206f73207361772065687328206563696c4120646569;
0x2074756f20676e696e65706f206d9980e24920776f6e9880e2203b296873696c676e4520646f6f67206b61657073206f7420776f6820746f67726f6620657469;
0x6f6628209980e22174656566202c6579622d646f6f472021736177207265766520746168742065706f6373656c6574207473656772616c2065687420656b696c;
0x74756f2074736f6d6c61206562206f742064656d6565732079656874202c7465656620726568207461206e776f642064656b6f6f6c20656873206e6568772072;
0x20656c7474696c20726f6f7020796d202c684f9880e2202e2966666f20726166206f7320676e697474656720657265772079656874202c746867697320666f20;
0x20756f7920726f662073676e696b636f747320646e612073656f68732072756f79206e6f20747570206c6c6977206f6877207265646e6f772049202c74656566;
0x2074616572672061206562206c6c61687320492021656c626120656220749980e26e616873205f495f2065727573206d9980e249203f7372616564202c776f6e;
0x6874206567616e616d207473756d20756f79203a756f792074756f626120666c6573796d20656c62756f7274206f742066666f20726166206f6f74206c616564;
0x63696c4120746867756f6874209980e22c6d656874206f7420646e696b206562207473756d2049207475622d2d3b6e616320756f792079617720747365622065;
0x20656d2074654c20216f67206f7420746e617720492079617720656874206b6c617720749980e26e6f772079656874207370616872657020726f9880e2202c65;
0x410a0a9980e22e73616d7473697268432079726576652073746f6f6220666f20726961702077656e2061206d6568742065766967206c6c9980e249203a656573;
0x549880e2202e7469206567616e616d20646c756f772065687320776f6820666c6573726568206f7420676e696e6e616c70206e6f20746e65772065687320646e;
0xe2746920796e6e756620776f6820646e619880e2203b746867756f687420656873209980e22c7265697272616320656874207962206f67207473756d20796568;
0x6568742064646f20776f6820646e41202174656566206e776f20739980e2656e6f206f742073746e657365727020676e69646e6573202c6d656573206c6c9980;
0x48202020202020200a2e515345202c544f4f4620544847495220539980e24543494c4120202020200a0a216b6f6f6c206c6c697720736e6f6974636572696420;
0x4c20539980e24543494c4120485449572820202020202020202020200a2c5245444e454620454854205241454e2020202020202020200a2c4755524854524145;
0x6820726568206e656874207473754a0a0a9980e221676e696b6c6174206d9980e2492065736e65736e6f6e2074616877202c7261656420684f0a0a2e2945564f;
0x726f6d20776f6e20736177206568732074636166206e69203a6c6c61682065687420666f20666f6f72206568742074736e69616761206b637572747320646165;
0x6e65646c6f6720656c7474696c20656874207075206b6f6f742065636e6f2074612065687320646e61202c68676968207465656620656e696e206e6168742065;
0x2073612073617720744920216563696c4120726f6f500a0a2e726f6f64206e656472616720656874206f742066666f206465697272756820646e612079656b20;
0x6e69206867756f726874206b6f6f6c206f74202c6564697320656e6f206e6f206e776f6420676e69796c202c6f6420646c756f6320656873207361206863756d;
0x7373656c65706f682065726f6d20736177206867756f72687420746567206f7420747562203b65796520656e6f2068746977206e656472616720656874206f74;
0x7420746867756f20756f599880e20a0a2e6e6961676120797263206f74206e6167656220646e61206e776f642074617320656873203a72657665206e61687420;
0x6f7920656b696c206c72696720746165726720619880e2202c6563696c412064696173209980e22c666c657372756f7920666f2064656d61687361206562206f;
0x217961772073696874206e6920676e69797263206e6f206f67206f749880e2202c297369687420796173206c6c657720746867696d2065687328209980e22c75;
0x202c656d617320656874206c6c61206e6f20746e65772065687320747542209980e221756f79206c6c65742049202c746e656d6f6d207369687420706f745320;
0x6e756f72206c6c61206c6f6f7020656772616c206120736177206572656874206c69746e75202c737261657420666f20736e6f6c6c616720676e696464656873;
0xa0a2e6c6c616820656874206e776f6420666c616820676e69686361657220646e61207065656420736568636e692072756f662074756f6261202c7265682064;
0x636e617473696420656874206e69207465656620666f20676e6972657474617020656c7474696c20612064726165682065687320656d69742061207265746641;
0x736177207449202e676e696d6f6320736177207461687720656573206f7420736579652072656820646569726420796c69747361682065687320646e61202c65;
0x20666f207269617020612068746977202c6465737365726420796c6469646e656c7073202c676e696e7275746572207469626261522065746968572065687420;
0x6163206568203a726568746f20656874206e69206e616620656772616c206120646e6120646e616820656e6f206e69207365766f6c672064696b206574696877;
0x6320656820736120666c65736d6968206f7420676e6972657474756d202c79727275682074616572672061206e6920676e6f6c6120676e6974746f727420656d;
0x206567617661732065622065687320749980e26e6f772021684f20217373656863754420656874202c73736568637544206568742021684f9880e2202c656d61;
0x20656873207461687420657461726570736564206f7320746c6566206563696c41209980e221676e697469617720726568207470656b2065769980e249206669;
0x207261656e20656d61632074696262615220656874206e656877202c6f73203b656e6f20796e6120666f20706c6568206b7361206f7420796461657220736177;
0x80e22d2d726973202c657361656c7020756f792066499880e2202c6563696f762064696d6974202c776f6c2061206e69202c6e6167656220656873202c726568;
0x646e61207365766f6c672064696b2065746968772065687420646570706f7264202c796c746e656c6f6976206465747261747320746962626152206568542099;
0x6c756f632065682073612064726168207361207373656e6b72616420656874206f746e692079617761206465697272756b7320646e61202c6e61662065687420;
0x657620736177206c6c616820656874207361202c646e61202c7365766f6c6720646e61206e616620656874207075206b6f6f74206563696c410a0a2e6f672064;
0x6e696b6c6174206e6f20746e65772065687320656d697420656874206c6c6120666c657372656820676e696e6e6166207470656b20656873202c746f68207972;
0x2079616472657473657920646e4120217961642d6f7420736920676e696874797265766520726565757120776f48202172616564202c726165449880e2203a67;
0x6e69206465676e616863206e6565622065769980e249206669207265646e6f772049202e6c61757375207361207473756a206e6f20746e65772073676e696874;
0x6e726f6d207369687420707520746f672049206e65687720656d617320656874204920736177203a6b6e69687420656d2074654c203f746867696e2065687420;
0x42202e746e6572656666696420656c7474696c206120676e696c656566207265626d656d6572206e61632049206b6e6968742074736f6d6c612049203f676e69;
0x646c726f7720656874206e69206f6857202c7369206e6f697473657571207478656e20656874202c656d61732065687420746f6e206d9980e249206669207475;
0x20676e696b6e696874206e616765622065687320646e41209980e221656c7a7a75702074616572672065687420539980e254414854202c6841203f49206d6120;
0x737265682073612065676120656d61732065687420666f206572657720746168742077656e6b20656873206e6572646c69686320656874206c6c61207265766f;
0x9880e20a0a2e6d65687420666f20796e6120726f66206465676e616863206e656562206576616820646c756f632065687320666920656573206f74202c666c65;
0x73206e692073656f6720726961682072656820726f669880e2202c6469617320656873209980e22c61644120746f6e206d9980e2492065727573206d9980e249;
0x646e61203b6c6c61207461207374656c676e6972206e69206f6720749980e26e73656f6420656e696d20646e61202c7374656c676e697220676e6f6c20686375;
0x202c73676e69687420666f207374726f73206c6c6120776f6e6b204920726f66202c6c6562614d20656220749980e26e616320492065727573206d9980e24920;
0x2c65687320539980e2454853202c736564697365422021656c7474696c2079726576206120686375732073776f6e6b206568732021686f202c65687320646e61;
0x6920797274206c6c9980e24920217369206c6c6120746920676e696c7a7a757020776f68202c7261656420686f2d2d646e61202c49206d9980e24920646e6120;
0x662073656d69742072756f66203a65657320656d2074654c202e776f6e6b206f74206465737520492073676e69687420656874206c6c6120776f6e6b20492066;
0x65732073656d69742072756f6620646e61202c6e65657472696874207369207869732073656d69742072756f6620646e61202c65766c65777420736920657669;
0x7665776f4820216574617220746168742074612079746e657774206f742074656720726576656e206c6c616873204920217261656420686f2d2d7369206e6576;
0x676f65472079727420739980e274656c203a7966696e67697320749980e26e73656f6420656c626154206e6f69746163696c7069746c754d20656874202c7265;
0x206c6174697061632065687420736920736972615020646e61202c736972615020666f206c61746970616320656874207369206e6f646e6f4c202e7968706172;
0x7473756d204920216e696174726563206d9980e249202c676e6f7277206c6c6120539980e254414854202c6f6e2d2d656d6f5220646e61202c656d6f5220666f;
0x6568742068746f6420776f489c80e22079617320646e6120797274206c6c9980e24920216c6562614d20726f66206465676e616863206e656562206576616820;
0x77206568732066692073612070616c20726568206e6f2073646e61682072656820646573736f72632065687320646e61209980e29c80e22d2d656c7474696c20;
0x65646e756f73206563696f762072656820747562202c746920746165706572206f74206e6167656220646e61202c736e6f7373656c20676e6979617320657265;
0x65687420736120656d61732065687420656d6f6320746f6e20646964207364726f772065687420646e61202c65676e6172747320646e6120657372616f682064;
0x706d492020202020200a656c69646f636f726320656c7474696c206568742068746f6420776f489880e220202020200a0a2d2d3a6f64206f7420646573752079;
0x2020200a656c694e2065687420666f20737265746177206568742072756f7020646e412020202020200a2c6c69617420676e696e696873207369682065766f72;
0x7267206f7420736d65657320656820796c6c7566726565686320776f489880e220202020200a0a21656c616373206e65646c6f67207972657665206e4f202020;
0x20656c7474696c20656d6f636c657720646e412020202020200a2c7377616c63207369682064616572707320796c7461656e20776f482020202020200a2c6e69;
0x736f68742065727573206d9980e2499880e20a0a9980e2217377616a20676e696c696d7320796c746e656720687469572020202020200a6e6920736568736966;
0x6c6c696620736579652072656820646e61202c6563696c4120726f6f702064696173209980e22c7364726f772074686769722065687420746f6e206572612065;
0x6c6c61207265746661206c6562614d206562207473756d20499880e2202c6e6f20746e657720656873207361206e696167612073726165742068746977206465;
0x646e61202c6573756f6820656c7474696c20796b6f702074616874206e69206576696c20646e61206f67206f742065766168206c6c616873204920646e61202c;
0x736e6f7373656c20796e616d206f7320726576652021686f20646e61202c687469772079616c70206f742073796f74206f6e206f74207478656e206576616820;
0x202c6c6562614d206d9980e249206669203b74692074756f626120646e696d20796d207075206564616d2065769980e249202c6f4e20216e7261656c206f7420;
0x61656820726965687420676e697474757020726965687420657375206f6e206562206c6c9980e27449202165726568206e776f642079617473206c6c9980e249;
0x206b6f6f6c20796c6e6f206c6c6168732049209d80e22172616564202c6e6961676120707520656d6f439c80e220676e6979617320646e61206e776f64207364;
0x2049206669202c6e65687420646e61202c7473726966207461687420656d206c6c6554203f6e6568742049206d61206f68579c80e22079617320646e61207075;
0x6e776f642079617473206c6c9980e249202c746f6e206669203a707520656d6f63206c6c9980e249202c6e6f73726570207461687420676e69656220656b696c;
0x2c6563696c41206465697263209980e2217261656420686f202c7475622d2d9d80e265736c652079646f62656d6f73206d9980e249206c6c6974206572656820;
0x72696568742074757020444c554f5720796568742068736977206f6420499880e2202c737261657420666f207473727562206e65646475732061206874697720;
0xa9980e2216572656820656e6f6c61206c6c6120676e69656220666f2064657269742059524556206f73206d61204920216e776f6420736461656820].
(** Where the crate xi_unicode breaks it, as the number of bytes of each piece, and whether it must: the pieces
    are those in tests/alice.pdf, which end in a space, a hyphen or a newline.  For tests/alice.rs:8 *)
Definition alice_pieces : list (nat * bool) :=
  let s n := (n, false) in let h n := (n, true) in
  [s 8; s 4; s 4; s 5; s 3; h 6; h 1; s 13; s 4; s 14; s 6; s 6; s 5; s 4; s 3; s 5; s 11; s 5; s 4; s 4; s 7;
   s 4; s 6; s 7; s 4; s 3; s 6; s 5; s 10; s 7; s 6; s 8; s 4; s 5; s 4; s 8; s 10; s 5; s 5; s 5; s 5; s 5;
   s 14; s 5; s 4; s 7; s 5; s 3; s 4; s 6; s 5; s 7; s 3; s 3; s 7; s 4; s 3; s 7; s 5; s 5; s 8; s 3; s 4;
   s 6; s 7; s 3; s 5; s 7; s 6; s 2; s 7; s 4; s 5; s 4; s 3; s 5; s 6; s 4; s 10; s 4; s 4; s 5; s 7; s 6;
   s 5; s 4; s 9; s 3; s 6; s 2; s 6; s 3; s 2; s 6; s 5; s 4; s 4; s 4; s 3; s 8; s 7; s 6; s 5; s 4; s 5;
   s 7; s 4; s 5; s 4; s 4; s 6; s 4; s 2; s 5; s 3; s 5; s 3; s 9; s 8; s 7; s 6; s 8; s 5; s 8; s 5; s 4;
   s 4; s 2; s 5; s 3; s 4; s 4; s 3; s 5; s 7; s 5; s 5; s 2; s 4; s 5; s 3; s 6; s 6; h 14; h 1; s 4; s 4;
   s 5; s 3; s 9; s 3; s 8; s 4; s 4; s 6; s 7; s 4; s 8; s 5; s 3; s 3; s 4; s 12; s 4; s 9; s 7; s 4; s 6;
   s 8; s 6; s 8; s 9; s 3; s 8; s 4; s 6; s 4; s 4; s 4; s 4; s 11; s 5; h 6; h 1; s 5; s 10; s 6; s 6; h 5;
   s 7; h 11; s 9; s 5; s 4; h 8; s 11; s 6; s 10; h 7; h 1; s 3; s 6; s 5; s 9; s 6; h 12; h 1; s 5; s 5;
   s 4; s 5; s 7; s 8; s 4; s 5; s 3; s 4; s 6; s 3; s 5; s 4; s 4; s 4; s 5; s 5; s 5; s 5; s 6; s 4; s 4;
   s 3; s 5; s 5; s 3; s 4; s 7; s 7; s 4; s 4; s 8; s 4; s 3; s 4; s 7; h 6; h 1; s 5; s 7; s 3; s 4; s 3;
   s 5; s 3; s 4; s 6; s 4; s 6; s 5; s 3; s 4; s 6; s 3; s 5; s 8; s 5; s 4; s 7; s 5; s 4; s 5; s 4; s 3;
   s 4; s 8; s 4; s 5; s 9; s 5; s 6; s 4; s 4; s 5; s 4; s 6; s 3; s 4; h 7; h 1; s 7; s 6; s 3; s 3; s 8;
   s 3; s 13; s 5; s 7; s 5; s 6; s 5; s 5; s 13; s 6; s 5; s 4; s 7; s 6; s 3; s 3; s 7; s 3; s 5; s 5; s 5;
   s 5; s 8; s 2; s 5; s 8; s 4; s 4; s 5; s 3; s 4; s 4; s 6; s 9; s 8; s 3; s 7; s 6; s 6; s 4; s 2; s 6;
   s 5; s 4; s 6; s 5; s 6; s 5; s 7; s 5; s 4; s 9; s 5; s 5; s 4; h 6; h 1; s 6; s 2; s 5; s 4; s 6; s 2;
   s 7; s 10; s 3; s 5; s 3; s 4; s 10; s 4; s 4; s 8; s 6; s 4; s 5; s 3; s 4; s 5; s 4; s 8; s 3; s 4; s 4;
   s 6; s 7; s 11; s 11; s 9; s 5; s 2; s 5; s 3; s 6; s 4; s 7; s 3; s 4; s 5; s 4; s 2; s 6; s 4; s 3; s 4;
   s 7; s 3; s 5; s 9; s 6; s 3; s 2; s 6; s 7; s 10; s 3; s 8; s 3; s 3; s 6; s 7; s 4; s 9; s 4; s 9; s 4;
   s 8; s 4; s 3; s 7; s 3; s 7; s 5; s 4; s 12; s 6; s 5; s 3; s 10; s 5; s 4; s 4; s 6; s 3; s 4; s 5; s 3;
   s 4; s 5; s 4; s 5; s 4; s 7; s 5; s 5; s 5; s 4; s 7; s 3; s 2; s 5; s 6; s 7; s 6; s 4; s 8; s 9; s 4;
   s 7; s 8; s 11; s 8; s 4; s 6; s 4; s 7; s 4; s 4; s 5; s 4; s 9; s 5; s 5; s 4; s 9; s 3; s 5; s 3; s 3;
   s 6; h 4; h 1; s 6; s 5; s 3; s 4; s 4; s 4; s 8; s 5; s 3; s 4; s 5; s 4; s 5; s 5; s 4; s 5; s 8; s 8;
   s 4; s 4; s 5; s 4; s 5; s 3; s 9; s 9; s 6; s 4; s 6; s 11; s 3; s 3; s 5; s 4; s 10; s 7; s 5; s 3; s 5;
   s 3; s 7; s 2; s 7; s 3; s 7; s 5; s 8; s 3; s 4; s 7; s 4; s 3; s 7; s 4; s 2; s 4; s 5; s 5; s 2; s 4;
   s 3; s 5; s 9; s 2; s 7; s 6; s 2; s 4; s 9; s 8; s 2; s 7; s 11; s 4; s 3; s 6; s 4; s 4; s 6; s 4; s 5;
   s 9; s 4; s 4; s 3; s 4; s 6; s 3; s 3; s 4; s 9; s 4; s 6; s 11; s 4; s 4; s 6; s 9; s 5; s 4; s 4; s 9;
   s 4; s 5; s 5; s 5; s 3; s 4; s 5; s 4; s 3; s 9; s 3; s 4; s 3; s 4; s 6; s 5; s 5; s 8; s 4; s 4; s 3;
   h 6; h 1; s 9; s 5; s 6; s 4; s 8; s 4; s 6; s 7; s 4; s 5; s 5; s 3; s 5; s 5; s 10; s 4; s 5; s 10; s 3;
   s 3; s 9; s 3; s 5; s 4; s 6; s 5; s 2; s 8; s 3; s 7; s 4; s 2; s 5; s 4; s 6; s 3; s 8; s 4; s 5; s 4;
   s 4; s 6; s 5; s 2; s 5; s 8; s 9; s 8; s 5; s 4; s 6; s 3; s 5; s 3; s 6; s 4; s 9; s 3; s 4; s 4; s 7;
   s 4; s 3; s 2; s 5; s 4; s 4; s 7; s 2; s 5; s 3; s 6; s 4; s 3; s 5; s 5; s 6; s 5; s 3; s 8; s 4; s 5;
   s 6; s 4; s 3; s 10; s 4; s 5; s 6; s 6; s 4; s 3; s 6; s 2; s 6; s 6; s 4; s 3; s 7; s 3; s 5; s 6; s 9;
   s 4; s 15; s 6; s 10; s 9; s 8; s 4; s 11; s 7; s 3; s 4; s 8; s 3; s 7; s 4; s 6; s 3; s 4; s 8; s 3;
   s 6; s 4; s 6; s 4; s 9; s 4; s 7; s 6; s 9; s 2; s 5; s 5; s 5; s 8; s 4; s 7; s 7; s 4; s 4; s 4; s 7;
   s 5; s 4; s 15; s 4; s 4; s 8; s 4; s 6; s 3; s 4; s 4; s 3; s 3; s 4; s 5; s 7; s 9; s 4; s 6; s 3; s 7;
   s 4; s 4; s 4; s 6; s 8; s 7; s 4; s 9; s 4; s 4; s 6; s 4; s 4; s 5; s 4; s 5; s 3; s 5; s 5; s 3; h 6;
   h 1; s 5; s 7; s 5; s 4; s 7; h 10; s 6; s 8; s 4; s 8; h 6; s 6; s 4; s 5; s 4; s 7; s 3; s 4; h 5; s 6;
   s 3; s 6; s 7; h 7; h 1; s 5; s 7; s 11; s 3; s 6; s 3; h 6; s 6; s 4; s 7; s 7; s 4; h 7; s 6; s 4; s 8;
   s 7; s 7; h 3; s 6; s 5; s 7; s 8; h 9; h 1; s 9; s 5; s 6; s 4; s 4; s 4; s 6; s 10; s 5; s 5; s 7; s 4;
   s 4; s 5; s 7; s 5; s 6; s 6; s 3; s 4; s 5; s 4; s 5; s 5; s 3; s 6; s 6; s 5; s 4; s 2; s 6; s 5; s 3;
   s 3; s 4; s 5; s 3; s 5; s 5; s 7; s 7; s 4; s 5; s 5; s 3; s 3; s 5; s 3; s 5; s 6; s 4; s 4; s 5; s 3;
   s 5; s 8; s 3; s 7; s 4; s 7; s 5; s 3; s 3; s 5; s 6; s 4; s 3; s 6; s 7; s 7; s 5; s 5; s 6; s 8; s 3;
   s 3; s 4; s 6; s 8; s 6; s 6; s 5; s 4; s 7; s 8; s 3; s 7; s 9; s 2; s 6; s 5; s 5; s 3; s 4; s 4; s 7;
   s 3; s 2; s 6; s 5; s 3; s 5; s 7; s 4; s 6; s 3; s 2; s 5; s 6; s 5; s 8; s 7; s 5; s 4; s 3; s 5; s 7;
   s 5; s 5; s 5; s 5; s 6; s 9; s 9; s 5; s 3; s 9; s 6; s 7; s 5; s 2; s 7; s 6; s 3; s 7; s 5; s 3; s 5;
   s 5; s 6; s 4; s 6; s 6; s 6; s 2; s 3; s 3; s 5; s 6; s 3; s 6; s 4; s 6; h 9]%nat.
(** The positions, as [LineBreakIterator] gives them: text_plain.rs:63-64 *)
Fixpoint positions (start : nat) (l : list (nat * bool)) : list (nat * bool) :=
  match l with [] => [] | (n, hard) :: r => (start + n, hard)%nat :: positions (start + n) r end.
(** tests/alice.pdf up to the font *)
Definition alice_start : bytes := unpack 320 [
0x2031312052203020395b207364694b2f203320746e756f432f2073656761502f20657079542f203c3c0a6a626f203020310afbaeedb5250a352e312d46445025;
0x3e3e203c3c206574617453477478452f203e3e2052203020372030662f203c3c20746e6f462f203c3c2073656372756f7365522f205d52203020333120522030;
0x330a6a626f646e650a3e3e2052203020312073656761502f20676f6c617461432f20657079542f203c3c0a6a626f203020320a6a626f646e650a3e3e203e3e20;
0x6f746369762f6e697061536e6f6d69532f6d6f632e6275687469672f2f3a73707474683c20726f74636956282072656375646f72502f203c3c0a6a626f203020;
0xa6d61657274730a3e3e203233393536206874676e654c2f20323339353620316874676e654c2f203c3c0a6a626f203020340a6a626f646e650a3e3e20293e72].
(** tests/alice.pdf after the font *)
Definition alice_end : bytes := unpack 85172 [
0x69422f20656d614e746e6f462f20726f7470697263736544746e6f462f20657079542f203c3c0a6a626f203020350a6a626f646e650a6d6165727473646e650a;
0x38323920746e656373412f205d3832392037383231203533322d203338312d5b20786f4242746e6f462f206e616d6f522d736e6153617265566d616572747374;
0x676965487061432f2034207367616c462f203020656c676e4163696c6174492f2052203020342032656c6946746e6f462f203533322d20746e65637365442f20;
0xa3e3e2030363933206874676e654c2f203c3c0a6a626f203020360a6a626f646e650a3e3e20303820486d6574532f20303820566d6574532f20383239207468;
0x636e696765620a6e6967656220746369642032310a6e6967656220656372756f736572646e696620746553636f72502f2074696e494449432f0a6d6165727473;
0x6d656c707075532f20295343552820676e69726564724f2f202965626f6441282079727473696765522f203c3c0a6f666e496d65747379534449432f0a70616d;
0x310a6665642032206570795470614d432f0a666564205343552d797469746e6564492d65626f64412f20656d614e70614d432f0a666564203e3e203020746e65;
0x66626e69676562203030310a65676e6172656361707365646f63646e650a3e666666663c203e303030303c0a65676e6172656361707365646f636e6967656220;
0x30303c0a3e333230303c203e363030303c0a3e323230303c203e353030303c0a3e313230303c203e343030303c0a3e303230303c203e333030303c0a72616863;
0x3230303c203e623030303c0a3e373230303c203e613030303c0a3e363230303c203e393030303c0a3e353230303c203e383030303c0a3e343230303c203e3730;
0x303130303c0a3e633230303c203e663030303c0a3e623230303c203e653030303c0a3e613230303c203e643030303c0a3e393230303c203e633030303c0a3e38;
0x3e313330303c203e343130303c0a3e303330303c203e333130303c0a3e663230303c203e323130303c0a3e653230303c203e313130303c0a3e643230303c203e;
0x203e393130303c0a3e353330303c203e383130303c0a3e343330303c203e373130303c0a3e333330303c203e363130303c0a3e323330303c203e353130303c0a;
0x3c0a3e613330303c203e643130303c0a3e393330303c203e633130303c0a3e383330303c203e623130303c0a3e373330303c203e613130303c0a3e363330303c;
0x303c203e323230303c0a3e653330303c203e313230303c0a3e643330303c203e303230303c0a3e633330303c203e663130303c0a3e623330303c203e65313030;
0x30303c0a3e333430303c203e363230303c0a3e323430303c203e353230303c0a3e313430303c203e343230303c0a3e303430303c203e333230303c0a3e663330;
0x3430303c203e623230303c0a3e373430303c203e613230303c0a3e363430303c203e393230303c0a3e353430303c203e383230303c0a3e343430303c203e3732;
0x303330303c0a3e633430303c203e663230303c0a3e623430303c203e653230303c0a3e613430303c203e643230303c0a3e393430303c203e633230303c0a3e38;
0x3e313530303c203e343330303c0a3e303530303c203e333330303c0a3e663430303c203e323330303c0a3e653430303c203e313330303c0a3e643430303c203e;
0x203e393330303c0a3e353530303c203e383330303c0a3e343530303c203e373330303c0a3e333530303c203e363330303c0a3e323530303c203e353330303c0a;
0x3c0a3e613530303c203e643330303c0a3e393530303c203e633330303c0a3e383530303c203e623330303c0a3e373530303c203e613330303c0a3e363530303c;
0x303c203e323430303c0a3e653530303c203e313430303c0a3e643530303c203e303430303c0a3e633530303c203e663330303c0a3e623530303c203e65333030;
0x30303c0a3e333630303c203e363430303c0a3e323630303c203e353430303c0a3e313630303c203e343430303c0a3e303630303c203e333430303c0a3e663530;
0x3630303c203e623430303c0a3e373630303c203e613430303c0a3e363630303c203e393430303c0a3e353630303c203e383430303c0a3e343630303c203e3734;
0x303530303c0a3e633630303c203e663430303c0a3e623630303c203e653430303c0a3e613630303c203e643430303c0a3e393630303c203e633430303c0a3e38;
0x3e313730303c203e343530303c0a3e303730303c203e333530303c0a3e663630303c203e323530303c0a3e653630303c203e313530303c0a3e643630303c203e;
0x203e393530303c0a3e353730303c203e383530303c0a3e343730303c203e373530303c0a3e333730303c203e363530303c0a3e323730303c203e353530303c0a;
0x3c0a3e613730303c203e643530303c0a3e393730303c203e633530303c0a3e383730303c203e623530303c0a3e373730303c203e613530303c0a3e363730303c;
0x303c203e636130303c0a3e653730303c203e313630303c0a3e643730303c203e303630303c0a3e633730303c203e663530303c0a3e623730303c203e65353030;
0x646e650a3e346130303c203e646230303c0a3e336130303c203e353830303c0a3e326130303c203e343830303c0a3e316130303c203e336130303c0a3e306130;
0x3e376130303c203e363830303c0a3e366130303c203e376530303c0a3e356130303c203e363930303c0a7261686366626e69676562203030310a726168636662;
0x203e346130303c0a3e626130303c203e396130303c0a3e616130303c203e643930303c0a3e396130303c203e623830303c0a3e386130303c203e653830303c0a;
0x3c0a3e306230303c203e333830303c0a3e666130303c203e396430303c0a3e656130303c203e613830303c0a3e646130303c203e303031303c0a3e636130303c;
0x303c203e373930303c0a3e346230303c203e643830303c0a3e336230303c203e326630303c0a3e326230303c203e316630303c0a3e316230303c203e33393030;
0x30303c0a3e396230303c203e306630303c0a3e386230303c203e646430303c0a3e376230303c203e336330303c0a3e366230303c203e383830303c0a3e356230;
0x6230303c203e356630303c0a3e646230303c203e346630303c0a3e636230303c203e336630303c0a3e626230303c203e616130303c0a3e616230303c203e6539;
0x656130303c0a3e326330303c203e376330303c0a3e316330303c203e396330303c0a3e306330303c203e646130303c0a3e666230303c203e326130303c0a3e65;
0x3e376330303c203e343630303c0a3e366330303c203e303930303c0a3e356330303c203e333630303c0a3e346330303c203e323630303c0a3e336330303c203e;
0x203e666330303c0a3e626330303c203e616330303c0a3e616330303c203e386330303c0a3e396330303c203e353630303c0a3e386330303c203e626330303c0a;
0x3c0a3e306430303c203e386530303c0a3e666330303c203e656330303c0a3e656330303c203e646330303c0a3e646330303c203e636330303c0a3e636330303c;
0x303c203e666130303c0a3e346430303c203e316430303c0a3e336430303c203e306430303c0a3e326430303c203e326430303c0a3e316430303c203e36363030;
0x30303c0a3e396430303c203e356430303c0a3e386430303c203e313930303c0a3e376430303c203e666530303c0a3e366430303c203e373630303c0a3e356430;
0x6430303c203e636530303c0a3e646430303c203e616530303c0a3e636430303c203e383630303c0a3e626430303c203e346430303c0a3e616430303c203e3364;
0x643630303c0a3e326530303c203e623630303c0a3e316530303c203e393630303c0a3e306530303c203e613630303c0a3e666430303c203e393830303c0a3e65;
0x3e376530303c203e663630303c0a3e366530303c203e306130303c0a3e356530303c203e653630303c0a3e346530303c203e633630303c0a3e336530303c203e;
0x203e353730303c0a3e626530303c203e333730303c0a3e616530303c203e323730303c0a3e396530303c203e303730303c0a3e386530303c203e313730303c0a;
0x3c0a3e306630303c203e396530303c0a3e666530303c203e373730303c0a3e656530303c203e363730303c0a3e646530303c203e343730303c0a3e636530303c;
0x303c203e643730303c0a3e346630303c203e623730303c0a3e336630303c203e393730303c0a3e326630303c203e613730303c0a3e316630303c203e38373030;
0x30303c0a3e396630303c203e663730303c0a3e386630303c203e316130303c0a3e376630303c203e386230303c0a3e366630303c203e633730303c0a3e356630;
0x6630303c203e646530303c0a3e646630303c203e626530303c0a3e636630303c203e313830303c0a3e626630303c203e303830303c0a3e616630303c203e6537;
0x656630303c0a3e633031303c203e646630303c0a3e373031303c203e636630303c0a3e363031303c203e626630303c0a3e666630303c203e616230303c0a3e65;
0x3e303331303c203e386630303c0a3e663131303c203e376630303c0a3e653131303c203e366630303c0a3e313131303c203e666630303c0a3e643031303c203e;
0x31303c203e326530303c0a3e313431303c203e316530303c0a7261686366626e696765622036350a726168636662646e650a3e313331303c203e366430303c0a;
0x6530303c0a3e663531303c203e616630303c0a3e653531303c203e396630303c0a3e333531303c203e316230303c0a3e323531303c203e306230303c0a3e3234;
0x653731303c203e366530303c0a3e643731303c203e356530303c0a3e383731303c203e626230303c0a3e313631303c203e346530303c0a3e303631303c203e33;
0x3e626430303c0a3e386432303c203e616430303c0a3e376332303c203e306530303c0a3e366332303c203e376430303c0a3e323931303c203e366130303c0a3e;
0xa3e646432303c203e656430303c0a3e636432303c203e386430303c0a3e626432303c203e666430303c0a3e616432303c203e636430303c0a3e396432303c20;
0x3c203e366230303c0a3e343130323c203e336230303c0a3e333130323c203e326230303c0a3e306333303c203e623930303c0a3e396133303c203e663930303c;
0x303c0a3e643130323c203e356230303c0a3e633130323c203e346230303c0a3e613130323c203e346330303c0a3e393130323c203e376230303c0a3e38313032;
0x30323c203e626130303c0a3e323230323c203e373830303c0a3e313230323c203e326330303c0a3e303230323c203e323830303c0a3e653130323c203e356330;
0x3830303c0a3e636130323c203e323031303c0a3e613330323c203e666230303c0a3e393330323c203e656230303c0a3e303330323c203e366330303c0a3e3632;
0x313132323c203e393930303c0a3e663032323c203e613930303c0a3e363032323c203e386130303c0a3e323032323c203e383930303c0a3e323231323c203e63;
0x3e323930303c0a3e613132323c203e356130303c0a3e393132323c203e313031303c0a3e353132323c203e636230303c0a3e323132323c203e656530303c0a3e;
0xa3e343632323c203e343930303c0a3e303632323c203e663830303c0a3e383432323c203e376130303c0a3e623232323c203e633930303c0a3e653132323c20;
0x6168636662646e650a3e323062663c203e316330303c0a3e313062663c203e306330303c0a3e616335323c203e396230303c0a3e353632323c203e353930303c;
0xa646e650a646e650a706f7020656372756f736572656e696665642070614d432f2074636964746e657272756320656d614e70614d430a70616d63646e650a72;
0x6e6f46657361422f2030657079542f20657079746275532f20746e6f462f20657079542f203c3c0a6a626f203020370a6a626f646e650a6d6165727473646e65;
0x2d797469746e6564492f20676e69646f636e452f2052203020362065646f63696e556f542f206e616d6f522d736e6153617265566d61657274737469422f2074;
0x46657361422f203265707954746e6f464449432f20657079746275532f20746e6f462f20657079542f203c3c5b2073746e6f46746e61646e65637365442f2048;
0x2965626f6441282079727473696765522f203c3c206f666e496d65747379534449432f206e616d6f522d736e6153617265566d61657274737469422f20746e6f;
0x20572f20522030203520726f7470697263736544746e6f462f203e3e203020746e656d656c707075532f2029797469746e6564492820676e69726564724f2f20;
0x3133203733382030303520303933203039332034373220393737203035392036333620373338203935342030303420373133203731332030203030365b20305b;
0x33382036333320363333203633362036333620363336203633362036333620363336203633362036333620363336203633362036333320373133203036332037;
0x35203535362034393220343932203135372034373720353735203133362030373720383936203638362034383620303030312030333520373338203733382037;
0x33203039332035383620303136203538362038383920343836203133372030313620343336203439362037383720333036203738372038343720323638203735;
0x32203937352037373220373732203333362034333620323533203531362034333620393435203433362032313620303035203030352037333820303933203633;
0x33203633362034323520313935203139352037313820313935203333362032393320303235203131342034333620343336203131362033333620343739203737;
0x35203231362032313620323136203231362032313620323136203133372037383720383437203133362038393620343836203438362037333820363336203633;
0x36203333362031313620313136203131362031313620313136203333362037373220373732203737322037373220353136203531362035313620353136203934;
0x30352030303520303030312030303031203030303120393236203633362039383520303035203633362036333620303035203030352033333620333336203333;
0x37342031373420303235203838352036353720333736203731352036333620363336203733382037333820373338203333382037383720343739203733382030;
0x36203438362036333620303030312031313620313136203836362037333820363336203733362037333820303034203033352031313620313839203436372031;
0x33362036363120303136203139352034393420373338203731332037313320383135203831352030303031203030352032323031203936303120373837203438;
0x32203439322031333620313336203438362031333620343836203134333120383135203731332037313320303035203932362039323620393933203939332036;
0x35203030352030303520303035203030352030303520303035203737322031333720313337203133372037383720373837203738372034393220343932203439;
0x36203430362031393520303136203131362034373720363333203432352035383620303235203433362034383220323635203030352030303520303035203030;
0x36203934352038393620303235203433362034393220343336203437372039363920393639203936392030303420303034203030342037333820373338203433;
0x5d3e3e205d5d30303520303035203030342030303520303035203030352030303520303035203030352036333620373133203036332034333620393435203839;
0x3020302035372e302d203020302035372e300a6d61657274730a3e3e203930343233206874676e654c2f203c3c0a6a626f203020380a6a626f646e650a3e3e20;
0x303042323030363230303c0a6d54203631313234342e34392035353039352e353720302e36312d2030203020302e36310a665420312030662f0a54420a6d6320;
0x3337342e35353120302e36312d2030203020302e36310a665420312030662f0a54420a54450a6a54203e33303030353330303832303037333030333330303432;
0x312d2030203020302e36310a665420312030662f0a54420a54450a6a54203e333030303131303043323030433230303c0a6d54203631313234342e3439203633;
0xa665420312030662f0a54420a54450a6a54203e333030303834303042343030373330303c0a6d54203631313234342e34392033373238302e35373120302e36;
0xa6a54203e33303030463430303235303032353030333330303c0a6d54203631313234342e34392038343632392e39303220302e36312d2030203020302e3631;
0x30303039343030323530303c0a6d54203631313234342e343920333438362e38343220302e36312d2030203020302e36310a665420312030662f0a54420a5445;
0x30373330303c0a6d54203631313234342e343920313239312e39363220302e36312d2030203020302e36310a665420312030662f0a54420a54450a6a54203e33;
0x342e3831312035353039352e353720302e36312d2030203020302e36310a665420312030662f0a54420a54450a6a54203e363530303535303034343030383430;
0x2031313234342e3234312035353039352e353720302e36312d2030203020302e36310a665420312030662f0a54420a54450a6a54203e3c0a6d54203631313234;
0x312030662f0a54420a54450a6a54203e33303030353530303834303036353030383530303235303043343030353530303835303036323030364230303c0a6d54;
0x450a6a54203e333030303734303031353030343430303c0a6d542031313234342e32343120373238362e33363120302e36312d2030203020302e36310a665420;
0x35303038353030363430303c0a6d542031313234342e3234312031303736372e39393120302e36312d2030203020302e36310a665420312030662f0a54420a54;
0x203020302e36310a665420312030662f0a54420a54450a6a54203e33303030374230303430303035353030383430303635303038353030323530304334303035;
0xa54450a6a54203e3330303037343030383430304334303035353030363430303c0a6d542031313234342e3234312032323839382e31393220302e36312d2030;
0x30304334303046343030343230303c0a6d542031313234342e32343120333130372e37333320302e36312d2030203020302e36310a665420312030662f0a5442;
0x2031313234342e32343120363036312e32383320302e36312d2030203020302e36310a665420312030662f0a54420a54450a6a54203e33303030383430303634;
0x372e32323420302e36312d2030203020302e36310a665420312030662f0a54420a54450a6a54203e33303030383430304234303036353030423030303c0a6d54;
0x2030203020302e36310a665420312030662f0a54420a54450a6a54203e333030303635303034343030413530303c0a6d542031313234342e3234312037383530;
0x2e36310a665420312030662f0a54420a54450a6a54203e3330303032353030363530303c0a6d542031313234342e32343120323531392e39353420302e36312d;
0xa54450a6a54203e33303030423430303634303038353030303530303c0a6d542031313234342e3234312035393232302e34383420302e36312d203020302030;
0x30303535303038353030363530303c0a6d542031313234342e32343120383936362e34333520302e36312d2030203020302e36310a665420312030662f0a5442;
0x302e36312d2030203020302e36310a665420312030662f0a54420a54450a6a54203e333030304630303037343030383430303635303043343030353530303335;
0x665420312030662f0a54420a54450a6a54203e33303030373530303434303042343030373530303c0a6d542031313234342e3234312034383830332e30323620;
0x420a54450a6a54203e333030303535303032353030393430303c0a6d542031313234342e32343120383338372e38353620302e36312d2030203020302e36310a;
0x3030303834303042343030373530303c0a6d542031313234342e32343120363636372e36383620302e36312d2030203020302e36310a665420312030662f0a54;
0x30303530303c0a6d542031313234342e3636312035353039352e353720302e36312d2030203020302e36310a665420312030662f0a54420a54450a6a54203e33;
0x33352e30353120302e36312d2030203020302e36310a665420312030662f0a54420a54450a6a54203e3330303037353030313530303834303030353030323530;
0x2d2030203020302e36310a665420312030662f0a54420a54450a6a54203e333030303834303042343030363530303c0a6d542031313234342e36363120353631;
0xa54420a54450a6a54203e3330303038343030373530304334303038353030343530303c0a6d542031313234342e3636312031333437352e36383120302e3631;
0x413430303535303032353030393430303c0a6d542031313234342e3636312034303635312e35333220302e36312d2030203020302e36310a665420312030662f;
0x3234342e3636312034313739302e31393220302e36312d2030203020302e36310a665420312030662f0a54420a54450a6a54203e333030303735303032353030;
0x33382e31333320302e36312d2030203020302e36310a665420312030662f0a54420a54450a6a54203e333030304135303032353030423430303c0a6d54203131;
0x20302e36312d2030203020302e36310a665420312030662f0a54420a54450a6a54203e3330303032353030373530303c0a6d542031313234342e363631203135;
0x312030662f0a54420a54450a6a54203e3330303045343030343430303834303033353030363530303c0a6d542031313234342e3636312036393931362e353533;
0x3e33303030373430303235303032353030413430303c0a6d542031313234342e3636312037353834372e30313420302e36312d2030203020302e36310a665420;
0x3030383230303c0a6d542031313234342e3636312034353136332e38353420302e36312d2030203020302e36310a665420312030662f0a54420a54450a6a5420;
0x2d2030203020302e36310a665420312030662f0a54420a54450a6a54203e33303030453130304330303042343030363530304334303046343030413430303135;
0x312030662f0a54420a54450a6a54203e33303030413530303235303031353030364230303c0a6d542031313234342e36363120313039342e35333520302e3631;
0x54450a6a54203e333030303035303037423030433230303c0a6d542031313234342e363631203431332e31383520302e36312d2030203020302e36310a665420;
0x30303834303033353030323530303c0a6d542031313234342e363631203732342e34313620302e36312d2030203020302e36310a665420312030662f0a54420a;
0x363120323132382e36383620302e36312d2030203020302e36310a665420312030662f0a54420a54450a6a54203e333030304134303031353030433430303135;
0x3720302e36312d2030203020302e36310a665420312030662f0a54420a54450a6a54203e333030303735303038353030323530303c0a6d542031313234342e36;
0x36310a665420312030662f0a54420a54450a6a54203e33303030383430304534303043343030463430303c0a6d542031313234342e3039312035353039352e35;
0xa54420a54450a6a54203e333030303834303042343030373530303c0a6d542031313234342e3039312038333438302e39303120302e36312d2030203020302e;
0x413430303535303034343030463430303c0a6d542031313234342e3039312033303633382e30343120302e36312d2030203020302e36310a665420312030662f;
0x3039312036333736372e31303220302e36312d2030203020302e36310a665420312030662f0a54420a54450a6a54203e33303030373530303635303038343030;
0x662f0a54420a54450a6a54203e333030303834303033353030323530303634303036353030383430304634303038343030373530303c0a6d542031313234342e;
0x3030373530303434303042343030373530303c0a6d542031313234342e3039312033333938352e34383220302e36312d2030203020302e36310a665420312030;
0x3430303c0a6d542031313234342e3039312035333537352e32323320302e36312d2030203020302e36310a665420312030662f0a54420a54450a6a54203e3330;
0x39312036353330382e33363320302e36312d2030203020302e36310a665420312030662f0a54420a54450a6a54203e3330303035353030383430303935303038;
0x36312d2030203020302e36310a665420312030662f0a54420a54450a6a54203e33303030343030303635303034343030413530303c0a6d542031313234342e30;
0x20312030662f0a54420a54450a6a54203e30313030373430303235303032353030413230303c0a6d542031313234342e3039312032303833392e36303420302e;
0x203e33303030463030303834303043353030353430303c0a6d542031313234342e3039312037313235322e35353420302e36312d2030203020302e36310a6654;
0x38343030393430303c0a6d542031313234342e30393120373030332e35393420302e36312d2030203020302e36310a665420312030662f0a54420a54450a6a54;
0x302e36310a665420312030662f0a54420a54450a6a54203e33303030353530303235303039343030423030303330303037423030343030303735303038343030;
0x420a54450a6a54203e33303030313530303834303042343030413530303c0a6d542031313234342e3039312037333631322e37373520302e36312d2030203020;
0x30303834303042343030363530303c0a6d542031313234342e3039312034313132392e35323620302e36312d2030203020302e36310a665420312030662f0a54;
0x463430303c0a6d542031313234342e30393120333533372e39353620302e36312d2030203020302e36310a665420312030662f0a54420a54450a6a54203e3330;
0x39352e353720302e36312d2030203020302e36310a665420312030662f0a54420a54450a6a54203e333030303734303038343030453430303235303032353030;
0x3020302e36310a665420312030662f0a54420a54450a6a54203e33303030313530304135303032353030373430303c0a6d542031313234342e34313220353530;
0x665420312030662f0a54420a54450a6a54203e3330303037353030343430303c0a6d542031313234342e3431322037333937362e34323120302e36312d203020;
0xa54450a6a54203e333030303535303038343030423430303c0a6d542031313234342e3431322034343437362e36343120302e36312d2030203020302e36310a;
0x303834303038343030393430303c0a6d542031313234342e3431322037383335312e39373120302e36312d2030203020302e36310a665420312030662f0a5442;
0x313234342e3431322039343035372e31323220302e36312d2030203020302e36310a665420312030662f0a54420a54450a6a54203e3330303046303030373530;
0x33363220302e36312d2030203020302e36310a665420312030662f0a54420a54450a6a54203e33303030433530303834303042343030373530303c0a6d542031;
0x2030662f0a54420a54450a6a54203e333030303734303038343030303530303834303038343030363530303c0a6d542031313234342e3431322038393339332e;
0x420a54450a6a54203e3330303032353030373530303c0a6d542031313234342e34313220333032392e32333320302e36312d2030203020302e36310a66542031;
0x203e3330303038343030353430303c0a6d542031313234342e3431322032373939382e34353320302e36312d2030203020302e36310a665420312030662f0a54;
0x343030343430303c0a6d542031313234342e3431322035363631382e30383320302e36312d2030203020302e36310a665420312030662f0a54420a54450a6a54;
0x393736392e30343420302e36312d2030203020302e36310a665420312030662f0a54420a54450a6a54203e333030303735303036353030323530303035303046;
0x36312d2030203020302e36310a665420312030662f0a54420a54450a6a54203e333030303735303038353030323530303c0a6d542031313234342e3431322036;
0x203020302e36310a665420312030662f0a54420a54450a6a54203e3330303039343030323530303c0a6d542031313234342e343132203838302e33373420302e;
0x6a54203e333030304630303037353030423430304134303043343030363530303c0a6d542031313234342e3431322032383632342e34393420302e36312d2030;
0x3042343030373530303c0a6d542031313234342e3431322035323138372e34343520302e36312d2030203020302e36310a665420312030662f0a54420a54450a;
0x313234342e3431322034373432342e36383520302e36312d2030203020302e36310a665420312030662f0a54420a54450a6a54203e3330303043353030383430;
0x31333620302e36312d2030203020302e36310a665420312030662f0a54420a54450a6a54203e33303030383430303535303038343030413530303c0a6d542031;
0xa54420a54450a6a54203e33303030413430303135303043343030373530303735303038343030413430303c0a6d542031313234342e3431322034323339362e;
0x6a54203e3330303032353030363530303c0a6d542031313234342e3431322033323939382e34393620302e36312d2030203020302e36310a665420312030662f;
0x303034343030393430303c0a6d542031313234342e3833322035353039352e353720302e36312d2030203020302e36310a665420312030662f0a54420a54450a;
0xa6d542031313234342e3833322036363131352e36303120302e36312d2030203020302e36310a665420312030662f0a54420a54450a6a54203e333030303535;
0x2e37343120302e36312d2030203020302e36310a665420312030662f0a54420a54450a6a54203e3330303031313030433030303934303039343030323530303c;
0x302e36310a665420312030662f0a54420a54450a6a54203e33303030463030304234303032333030364230303c0a6d542031313234342e383332203639393937;
0x5420312030662f0a54420a54450a6a54203e3330303043353030303530303c0a6d542031313234342e38333220373131362e39383120302e36312d2030203020;
0x54203e33303030353530303235303032353030333530303c0a6d542031313234342e3833322037383137352e33323220302e36312d2030203020302e36310a66;
0x43343030463430303c0a6d542031313234342e3833322036383938372e38363220302e36312d2030203020302e36310a665420312030662f0a54420a54450a6a;
0x20393132342e33313320302e36312d2030203020302e36310a665420312030662f0a54420a54450a6a54203e3330303038343030463430303735303037353030;
0x3020302e36310a665420312030662f0a54420a54450a6a54203e3330303046303030373530303834303038343030393430303c0a6d542031313234342e383332;
0x2e36310a665420312030662f0a54420a54450a6a54203e33303030433230303c0a6d542031313234342e3833322038303730302e39353320302e36312d203020;
0x333030303535303038343030373430303135303032353030413530303c0a6d542031313234342e3833322032333133362e32373320302e36312d203020302030;
0x30413530303c0a6d542031313234342e3833322035353033312e31343420302e36312d2030203020302e36310a665420312030662f0a54420a54450a6a54203e;
0x313234342e3833322037363135302e33383420302e36312d2030203020302e36310a665420312030662f0a54420a54450a6a54203e3330303032353030423430;
0x38313520302e36312d2030203020302e36310a665420312030662f0a54420a54450a6a54203e33303030463430304634303043343030413530303c0a6d542031;
0x2030203020302e36310a665420312030662f0a54420a54450a6a54203e333030303735303038353030333530303c0a6d542031313234342e383332203937332e;
0x2e36310a665420312030662f0a54420a54450a6a54203e3330303031353030323530303c0a6d542031313234342e38333220383435382e33353520302e36312d;
0xa54450a6a54203e33303030353530303835303032353030433530303c0a6d542031313234342e3833322034393938362e32383520302e36312d203020302030;
0x303235303042343030363530303c0a6d542031313234342e3833322036393137352e37323620302e36312d2030203020302e36310a665420312030662f0a5442;
0x31313234342e38333220373232392e32383620302e36312d2030203020302e36310a665420312030662f0a54420a54450a6a54203e3330303036353030383430;
0x35353039352e353720302e36312d2030203020302e36310a665420312030662f0a54420a54450a6a54203e333030303734303031353030343430303c0a6d5420;
0x54420a54450a6a54203e333030303635303041343030313530304334303045343030363430303235303037353030363530303c0a6d5420313234342e32363220;
0x333030303535303032353030393430303c0a6d5420313234342e3236322033323838362e38353120302e36312d2030203020302e36310a665420312030662f0a;
0x3030433530303c0a6d5420313234342e3236322034383634322e38383120302e36312d2030203020302e36310a665420312030662f0a54420a54450a6a54203e;
0x20313234342e3236322039383330322e35323220302e36312d2030203020302e36310a665420312030662f0a54420a54450a6a54203e33303030383530303235;
0x382e30373220302e36312d2030203020302e36310a665420312030662f0a54420a54450a6a54203e33303030463030304135303032353030313530303c0a6d54;
0x5420312030662f0a54420a54450a6a54203e333030303232303036353030353530303434303038343030373430303c0a6d5420313234342e3236322034303436;
0xa54450a6a54203e333030303035303037423030433230303c0a6d5420313234342e3236322038353333362e31333320302e36312d2030203020302e36310a66;
0x3430303535303038353030363530303c0a6d5420313234342e32363220383238352e34363320302e36312d2030203020302e36310a665420312030662f0a5442;
0x303c0a6d5420313234342e3236322033383933302e37303420302e36312d2030203020302e36310a665420312030662f0a54420a54450a6a54203e3330303038;
0x2e3236322037313731332e35333420302e36312d2030203020302e36310a665420312030662f0a54420a54450a6a54203e333030303234303043323030323430;
0x203020302e36310a665420312030662f0a54420a54450a6a54203e333030303735303037423030313530303434303042343030363530303c0a6d542031323434;
0x2e36310a665420312030662f0a54420a54450a6a54203e3330303038343030353430303c0a6d5420313234342e323632203735362e32393420302e36312d2030;
0xa6a54203e3330303034303030383430304634303035343030343430303c0a6d5420313234342e3236322034363531322e30323520302e36312d203020302030;
0x6a54203e33303030433230303c0a6d5420313234342e32363220333833342e38363520302e36312d2030203020302e36310a665420312030662f0a54420a5445;
0x303042343030363530303c0a6d5420313234342e3236322034363531372e30383520302e36312d2030203020302e36310a665420312030662f0a54420a54450a;
0x34342e32363220313634342e35323620302e36312d2030203020302e36310a665420312030662f0a54420a54450a6a54203e3330303046343030463430303434;
0x3220373430302e33353620302e36312d2030203020302e36310a665420312030662f0a54420a54450a6a54203e3330303038343030353430303c0a6d54203132;
0x32203836332e30373620302e36312d2030203020302e36310a665420312030662f0a54420a54450a6a54203e33303030343430303c0a6d5420313234342e3236;
0x30203020302e36310a665420312030662f0a54420a54450a6a54203e3330303037353030343430303834303035353030413430303c0a6d5420313234342e3236;
0x2030662f0a54420a54450a6a54203e33303030463430303434303038343030373430303c0a6d5420313234342e3638322035353039352e353720302e36312d20;
0xa6a54203e333030303235303032353030373530303c0a6d5420313234342e3638322036383936382e36313120302e36312d2030203020302e36310a66542031;
0x35303034343030393430303c0a6d5420313234342e3638322033373035372e39343120302e36312d2030203020302e36310a665420312030662f0a54420a5445;
0x303c0a6d5420313234342e3638322037363539372e38373120302e36312d2030203020302e36310a665420312030662f0a54420a54450a6a54203e3330303035;
0x2e3638322037363937382e36303220302e36312d2030203020302e36310a665420312030662f0a54420a54450a6a54203e333030303934303039343030323530;
0x343137392e39323220302e36312d2030203020302e36310a665420312030662f0a54420a54450a6a54203e3330303032353030373530303c0a6d542031323434;
0x20312030662f0a54420a54450a6a54203e33303030383430304634303035343030383530303235303035353030373530303c0a6d5420313234342e3638322038;
0x34303046343030383430303635303043353030303530303c0a6d5420313234342e3638322036333732322e34393220302e36312d2030203020302e36310a6654;
0x303c0a6d5420313234342e3638322035313936352e34353320302e36312d2030203020302e36310a665420312030662f0a54420a54450a6a54203e3330303039;
0x36372e37303420302e36312d2030203020302e36310a665420312030662f0a54420a54450a6a54203e3330303037353030383530303235303035343030343430;
0x30203020302e36310a665420312030662f0a54420a54450a6a54203e33303030443130303835303032353030433530303c0a6d5420313234342e363832203532;
0x5420312030662f0a54420a54450a6a54203e333030303835303032353030433530303c0a6d5420313234342e3638322037383038352e39343420302e36312d20;
0xa6a54203e33303030373530303635303038353030303530303c0a6d5420313234342e36383220363830302e36383420302e36312d2030203020302e36310a66;
0x35303034343030303530303c0a6d5420313234342e3638322034383337332e33333520302e36312d2030203020302e36310a665420312030662f0a54420a5445;
0x36383220313933372e35303620302e36312d2030203020302e36310a665420312030662f0a54420a54450a6a54203e3330303038343030413430303434303031;
0x39333620302e36312d2030203020302e36310a665420312030662f0a54420a54450a6a54203e333030303834303042343030373530303c0a6d5420313234342e;
0x20302e36310a665420312030662f0a54420a54450a6a54203e33303030373530303635303038343030353430303c0a6d5420313234342e36383220323632302e;
0x2030662f0a54420a54450a6a54203e333030304335303034343030413530303c0a6d5420313234342e3638322036383436362e30383620302e36312d20302030;
0x450a6a54203e333030303835303032353030433530303c0a6d5420313234342e3031332035353039352e353720302e36312d2030203020302e36310a66542031;
0x35303034343030363430303c0a6d5420313234342e303133203539363038312e32313120302e36312d2030203020302e36310a665420312030662f0a54420a54;
0x34342e3031332034313636392e39353120302e36312d2030203020302e36310a665420312030662f0a54420a54450a6a54203e30313030303130304531303031;
0x32372e33393120302e36312d2030203020302e36310a665420312030662f0a54420a54450a6a54203e333030303735303038353030353430303c0a6d54203132;
0x2e35303220302e36312d2030203020302e36310a665420312030662f0a54420a54450a6a54203e33303030433230303c0a6d5420313234342e30313320353138;
0x3020302e36310a665420312030662f0a54420a54450a6a54203e33303030373530303635303038353030303530303c0a6d5420313234342e3031332036383336;
0xa665420312030662f0a54420a54450a6a54203e3330303038343030353430303c0a6d5420313234342e3031332033323636312e33353220302e36312d203020;
0x450a6a54203e33303030373430303135303043343030453430303c0a6d5420313234342e3031332034393735332e30383220302e36312d2030203020302e3631;
0x3330303032353030373530303c0a6d5420313234342e3031332036343735352e31323320302e36312d2030203020302e36310a665420312030662f0a54420a54;
0x3030373530303c0a6d5420313234342e3031332038363131382e34343320302e36312d2030203020302e36310a665420312030662f0a54420a54450a6a54203e;
0x3931302e34303420302e36312d2030203020302e36310a665420312030662f0a54420a54450a6a54203e33303030374230304630303030353030383430304234;
0x5420312030662f0a54420a54450a6a54203e33303030373530304234303041343030383530303235303042343030373530303c0a6d5420313234342e30313320;
0x4630303038343030363430304334303046343030343230303c0a6d5420313234342e3031332036373432312e34373420302e36312d2030203020302e36310a66;
0x30303c0a6d5420313234342e3031332037393837382e34323520302e36312d2030203020302e36310a665420312030662f0a54420a54450a6a54203e33303030;
0x34342e30313320383332352e33353520302e36312d2030203020302e36310a665420312030662f0a54420a54450a6a54203e3330303035353030323530303642;
0x20302e36310a665420312030662f0a54420a54450a6a54203e33303030363530303335303034343030423430303535303038343030333530303c0a6d54203132;
0xa54420a54450a6a54203e33303030433530303834303042343030373530303c0a6d5420313234342e3031332034313133372e35323620302e36312d20302030;
0x3030374230303135303032353030413530303c0a6d5420313234342e30313320343934362e38363620302e36312d2030203020302e36310a665420312030662f;
0x303c0a6d5420313234342e3433332035353039352e353720302e36312d2030203020302e36310a665420312030662f0a54420a54450a6a54203e333030303735;
0x2034363037362e37313120302e36312d2030203020302e36310a665420312030662f0a54420a54450a6a54203e33303030453430304634303034343030413530;
0x20302e36312d2030203020302e36310a665420312030662f0a54420a54450a6a54203e333030303834303042343030373530303c0a6d5420313234342e343333;
0x20302e36310a665420312030662f0a54420a54450a6a54203e333030304335303034343030413530303c0a6d5420313234342e3433332038393630342e393431;
0x2e36310a665420312030662f0a54420a54450a6a54203e33303030433230303c0a6d5420313234342e3433332039383434322e37383120302e36312d20302030;
0x420a54450a6a54203e33303030373530303135303034343030413530303c0a6d5420313234342e3433332037313234342e37393120302e36312d203020302030;
0x54203e3330303032353030373530303c0a6d5420313234342e3433332039333532322e32343220302e36312d2030203020302e36310a665420312030662f0a54;
0x3032353030413430303c0a6d5420313234342e3433332032343636372e33363220302e36312d2030203020302e36310a665420312030662f0a54420a54450a6a;
0x3c0a6d5420313234342e34333320333430362e35393220302e36312d2030203020302e36310a665420312030662f0a54420a54450a6a54203e33303030343030;
0x3433332037303431312e36323320302e36312d2030203020302e36310a665420312030662f0a54420a54450a6a54203e33303030373530303834303046323030;
0x3232302e37353320302e36312d2030203020302e36310a665420312030662f0a54420a54450a6a54203e3330303038343030303530303c0a6d5420313234342e;
0x30203020302e36310a665420312030662f0a54420a54450a6a54203e33303030443130303834303038343030363530303c0a6d5420313234342e343333203832;
0x30662f0a54420a54450a6a54203e33303030463430304634303037423030433230303c0a6d5420313234342e3433332036383431392e35393320302e36312d20;
0x33303030383430303935303043343030413430303c0a6d5420313234342e3433332038363838302e30323420302e36312d2030203020302e36310a6654203120;
0x3030373530303c0a6d5420313234342e3433332036323138342e39353420302e36312d2030203020302e36310a665420312030662f0a54420a54450a6a54203e;
0x342e3433332033353330382e36303520302e36312d2030203020302e36310a665420312030662f0a54420a54450a6a54203e3330303030353030383430304234;
0x3433332033373638302e32323520302e36312d2030203020302e36310a665420312030662f0a54420a54450a6a54203e33303030343430303c0a6d5420313234;
0x30363520302e36312d2030203020302e36310a665420312030662f0a54420a54450a6a54203e333030304135303038343030313530303c0a6d5420313234342e;
0x302e36310a665420312030662f0a54420a54450a6a54203e33303030353530304334303034343030333530303c0a6d5420313234342e3433332036353533362e;
0x5420312030662f0a54420a54450a6a54203e3330303039343030323530303c0a6d5420313234342e3433332035343839302e37393520302e36312d2030203020;
0x3330303036353030373530303235303032353030353430303c0a6d5420313234342e3433332034383839392e37313620302e36312d2030203020302e36310a66;
0x353030383430303c0a6d5420313234342e34333320313132382e37363620302e36312d2030203020302e36310a665420312030662f0a54420a54450a6a54203e;
0x3835332035353039352e353720302e36312d2030203020302e36310a665420312030662f0a54420a54450a6a54203e3330303043353030353530303834303039;
0x54420a54450a6a54203e37423030313130303635303034343030303530303735303036353030433430303535303042343030363230303c0a6d5420313234342e;
0x20312030662f0a54420a54450a6a54203e3c0a6d5420313234342e3238332035353039352e353720302e36312d2030203020302e36310a665420312030662f0a;
0xa54450a6a54203e333030303734303031353030343230303c0a6d5420313234342e3630342035353039352e353720302e36312d2030203020302e36310a6654;
0x303834303042343030363530303c0a6d5420313234342e363034203631303430382e32313120302e36312d2030203020302e36310a665420312030662f0a5442;
0x3530303c0a6d5420313234342e3630342031363539302e37343120302e36312d2030203020302e36310a665420312030662f0a54420a54450a6a54203e333030;
0x30342034363031342e32393120302e36312d2030203020302e36310a665420312030662f0a54420a54450a6a54203e3330303037353030313530303834303041;
0x31332e38313220302e36312d2030203020302e36310a665420312030662f0a54420a54450a6a54203e3330303031353030323530303c0a6d5420313234342e36;
0x2f0a54420a54450a6a54203e3330303041343030313530304334303031353030313530303434303046343030333530303c0a6d5420313234342e363034203631;
0x450a6a54203e3330303032353030373530303c0a6d5420313234342e3630342035353231372e33393220302e36312d2030203020302e36310a66542031203066;
0x3535303038343030423430303c0a6d5420313234342e3630342034333634372e35313320302e36312d2030203020302e36310a665420312030662f0a54420a54;
0x33393733352e36373320302e36312d2030203020302e36310a665420312030662f0a54420a54450a6a54203e3330303039343030463430303834303036353030;
0x302e36312d2030203020302e36310a665420312030662f0a54420a54450a6a54203e333030304135303032353030423430303c0a6d5420313234342e36303420;
0x302e36310a665420312030662f0a54420a54450a6a54203e333030303834303042343030363530303c0a6d5420313234342e3630342034383432352e35313420;
0x450a6a54203e3330303037343030463430303835303032353030413530303c0a6d5420313234342e3630342034343631382e39343420302e36312d2030203020;
0x303135303034343030303530303c0a6d5420313234342e36303420393430342e33303520302e36312d2030203020302e36310a665420312030662f0a54420a54;
0x342e36303420313231372e34373520302e36312d2030203020302e36310a665420312030662f0a54420a54450a6a54203e333030303834303041343030343430;
0x342e36393520302e36312d2030203020302e36310a665420312030662f0a54420a54450a6a54203e333030303131303037353030433430303c0a6d5420313234;
0x36310a665420312030662f0a54420a54450a6a54203e3330303043353030383430304234303037333030364230303c0a6d5420313234342e3630342034303838;
0x420a54450a6a54203e33303030373530303635303038353030303530303c0a6d5420313234342e36303420383137372e36343620302e36312d2030203020302e;
0xa6a54203e3330303032353030413430303c0a6d5420313234342e363034203937302e33393620302e36312d2030203020302e36310a665420312030662f0a54;
0x3330303043353030353430303c0a6d5420313234342e3033342035353039352e353720302e36312d2030203020302e36310a665420312030662f0a54420a5445;
0x3030373530303c0a6d5420313234342e3033342032313433322e33303120302e36312d2030203020302e36310a665420312030662f0a54420a54450a6a54203e;
0x5420313234342e30333420353031352e37333120302e36312d2030203020302e36310a665420312030662f0a54420a54450a6a54203e33303030383430304234;
0x310a665420312030662f0a54420a54450a6a54203e333030303742303046303030353530303834303043343030353530303535303034343030363430303c0a6d;
0xa54420a54450a6a54203e333030303834303042343030363530303c0a6d5420313234342e3033342034393532332e38303220302e36312d2030203020302e36;
0x30383530303235303042343030373530303c0a6d5420313234342e3033342033383436362e34343220302e36312d2030203020302e36310a665420312030662f;
0x3420313838392e30323320302e36312d2030203020302e36310a665420312030662f0a54420a54450a6a54203e33303030453130303735303042343030413430;
0x36312d2030203020302e36310a665420312030662f0a54420a54450a6a54203e33303030373430303135303034343030364230303c0a6d5420313234342e3033;
0x36310a665420312030662f0a54420a54450a6a54203e333030304135303032353030423430303c0a6d5420313234342e3033342035313439312e34363320302e;
0x6a54203e3330303043353030313530303135303038353030393430303c0a6d5420313234342e3033342033333832322e35303420302e36312d2030203020302e;
0x303037353030433430303c0a6d5420313234342e3033342032333037372e38353420302e36312d2030203020302e36310a665420312030662f0a54420a54450a;
0x34342e30333420323438342e31393420302e36312d2030203020302e36310a665420312030662f0a54420a54450a6a54203e3330303046343030463430303742;
0x2e36312d2030203020302e36310a665420312030662f0a54420a54450a6a54203e3330303046303030303530303834303038343030363530303c0a6d54203132;
0x54450a6a54203e33303030413430303135303043343030373430303135303038343030363530303c0a6d5420313234342e3033342036303839312e3834352030;
0x303834303035353030333530303c0a6d5420313234342e3033342036333533342e39313620302e36312d2030203020302e36310a665420312030662f0a54420a;
0x36392e36393620302e36312d2030203020302e36310a665420312030662f0a54420a54450a6a54203e3330303036353030373530303135303038343030363530;
0x20302e36312d2030203020302e36310a665420312030662f0a54420a54450a6a54203e3330303032353030373530303c0a6d5420313234342e30333420333731;
0x5420312030662f0a54420a54450a6a54203e3330303036353030374230303834303031353030323530303c0a6d5420313234342e3435342035353039352e3537;
0x420a54450a6a54203e333030303135303041353030323530303c0a6d5420313234342e34353420383137382e33323120302e36312d2030203020302e36310a66;
0x3530303834303038343030393430303c0a6d5420313234342e3435342036333337392e31363120302e36312d2030203020302e36310a665420312030662f0a54;
0x5420313234342e3435342031313736302e35303220302e36312d2030203020302e36310a665420312030662f0a54420a54450a6a54203e333030303430303037;
0x2033323539332e31343220302e36312d2030203020302e36310a665420312030662f0a54420a54450a6a54203e333030303734303031353030343230303c0a6d;
0x20302e36312d2030203020302e36310a665420312030662f0a54420a54450a6a54203e333030304135303032353030423430303c0a6d5420313234342e343534;
0x3020302e36310a665420312030662f0a54420a54450a6a54203e333030303734303037343030323530303c0a6d5420313234342e34353420383639342e393732;
0x20312030662f0a54420a54450a6a54203e333030303834303042343030373530303c0a6d5420313234342e34353420333438362e34313320302e36312d203020;
0x35303036343030383430303535303043343030373430303c0a6d5420313234342e3435342035303832302e36343320302e36312d2030203020302e36310a6654;
0x363831392e39323420302e36312d2030203020302e36310a665420312030662f0a54420a54450a6a54203e333030303635303031353030323530304334303037;
0x2030203020302e36310a665420312030662f0a54420a54450a6a54203e33303030463430304634303043343030413530303c0a6d5420313234342e3435342037;
0x2030662f0a54420a54450a6a54203e34303030453430303235303032353030463430303c0a6d5420313234342e3435342038343632342e31363420302e36312d;
0x36310a665420312030662f0a54420a54450a6a54203e3c0a6d5420313234342e3837342035353039352e353720302e36312d2030203020302e36310a66542031;
0x420a54450a6a54203e33303030333030303330303033303030333030303c0a6d5420313234342e3230352035353039352e353720302e36312d2030203020302e;
0x3230304332303046323030343230303c0a6d5420313234342e3230352034323032302e31303120302e36312d2030203020302e36310a665420312030662f0a54;
0x30352033373730322e37363120302e36312d2030203020302e36310a665420312030662f0a54420a54450a6a54203e3330303036333030374230303832303036;
0x2030203020302e36310a665420312030662f0a54420a54450a6a54203e3330303037333030423230304132303043323030353330303c0a6d5420313234342e32;
0xa54420a54450a6a54203e3330303046303030373330303233303032333030393230303c0a6d5420313234342e3230352033373233332e32323220302e36312d;
0x3e313130303433303036333030383230303c0a6d5420313234342e3230352037363836362e36373220302e36312d2030203020302e36310a665420312030662f;
0x303030333030303c0a6d542034313234342e3632352035353039352e353720302e36312d2030203020302e36310a665420312030662f0a54420a54450a6a5420;
0x313239312e31313120302e36312d2030203020302e36310a665420312030662f0a54420a54450a6a54203e333030303330303033303030333030303330303033;
0x54450a6a54203e463030304132303038333030353330304232303037333030353330303432303038323030423230303c0a6d542034313234342e363235203631;
0x303330303033303030333030303c0a6d542034313234342e3035352035353039352e353720302e36312d2030203020302e36310a665420312030662f0a54420a;
0x36332e31323120302e36312d2030203020302e36310a665420312030662f0a54420a54450a6a54203e3330303033303030333030303330303033303030333030;
0x3020302e36310a665420312030662f0a54420a54450a6a54203e33303030353330303432303038323030313330303c0a6d542034313234342e30353520393933;
0x2030662f0a54420a54450a6a54203e333030303832303042323030373330303c0a6d542034313234342e3035352035353039352e30373120302e36312d203020;
0x38323030373230303133303038323030393230303c0a6d542034313234342e3035352035353039352e37303220302e36312d2030203020302e36310a66542031;
0x6d542034313234342e3437352035353039352e353720302e36312d2030203020302e36310a665420312030662f0a54420a54450a6a54203e4630303035333030;
0x5420312030662f0a54420a54450a6a54203e33303030333030303330303033303030333030303330303033303030333030303330303033303030333030303c0a;
0x30303042323030373330304332303041333030423030303c0a6d542034313234342e3437352036383533352e31333120302e36312d2030203020302e36310a66;
0x343230303c0a6d542034313234342e3437352033373730322e35383120302e36312d2030203020302e36310a665420312030662f0a54420a54450a6a54203e33;
0x3220302e36312d2030203020302e36310a665420312030662f0a54420a54450a6a54203e33303030363330303742303038323030363230304332303046323030;
0x20312030662f0a54420a54450a6a54203e3131303043303030383230303933303032333030463230303c0a6d542034313234342e3437352033323539332e3135;
0x2e36310a665420312030662f0a54420a54450a6a54203e3c0a6d542034313234342e3839352035353039352e353720302e36312d2030203020302e36310a6654;
0x20312030662f0a54420a54450a6a54203e3330303042343030323330303c0a6d542034313234342e3232362035353039352e353720302e36312d203020302030;
0x3046303030353530303434303038343030373430303c0a6d542034313234342e323236203636383031342e33303120302e36312d2030203020302e36310a6654;
0x30303c0a6d542034313234342e3232362035353536392e39343120302e36312d2030203020302e36310a665420312030662f0a54420a54450a6a54203e333030;
0x362037313635332e34393120302e36312d2030203020302e36310a665420312030662f0a54420a54450a6a54203e333030303735303034343030423430304135;
0x2030662f0a54420a54450a6a54203e3330303038343030363530303135303038343030363530303135303032353030313530303c0a6d542034313234342e3232;
0x6a54203e333030303035303037423030433230303c0a6d542034313234342e3232362032343231302e36373220302e36312d2030203020302e36310a66542031;
0x3034343030373530303c0a6d542034313234342e3232362038393838342e36303320302e36312d2030203020302e36310a665420312030662f0a54420a54450a;
0x353720302e36312d2030203020302e36310a665420312030662f0a54420a54450a6a54203e374230303430303041343030313530304334303045343030463430;
0x35353039352e353720302e36312d2030203020302e36310a665420312030662f0a54420a54450a6a54203e3c0a6d542034313234342e3634362035353039352e;
0x2030203020302e36310a665420312030662f0a54420a54450a6a54203e33303030373530303635303038353030443230303c0a6d542034313234342e30373620;
0x30662f0a54420a54450a6a54203e33303030313530303834303042343030373530303c0a6d542034313234342e3037362031363536322e30313120302e36312d;
0x54203e333030303535303038343030423430303c0a6d542034313234342e3037362036333037382e31353120302e36312d2030203020302e36310a6654203120;
0x38343030423430303c0a6d542034313234342e3037362038313933362e33383120302e36312d2030203020302e36310a665420312030662f0a54420a54450a6a;
0x313234342e30373620383039372e38323220302e36312d2030203020302e36310a665420312030662f0a54420a54450a6a54203e333030303734303034343030;
0x2d2030203020302e36310a665420312030662f0a54420a54450a6a54203e333030304534303036343030383530303535303037353030363530303c0a6d542034;
0x54203e33303030373530303635303031353030433430303434303041343030343430303c0a6d542034313234342e3037362033373738332e33383220302e3631;
0x303042343030373530303c0a6d542034313234342e303736203535352e37343320302e36312d2030203020302e36310a665420312030662f0a54420a54450a6a;
0x3c0a6d542034313234342e30373620313931302e39373320302e36312d2030203020302e36310a665420312030662f0a54420a54450a6a54203e333030303834;
0x37343431302e36313420302e36312d2030203020302e36310a665420312030662f0a54420a54450a6a54203e3330303039343030323530303235303035353030;
0x333420302e36312d2030203020302e36310a665420312030662f0a54420a54450a6a54203e3330303039343030323530303c0a6d542034313234342e30373620;
0x3020302e36310a665420312030662f0a54420a54450a6a54203e333030303834303042343030373530303c0a6d542034313234342e3037362034363234362e36;
0x54450a6a54203e3330303044313030463430304634303034343030423430303c0a6d542034313234342e3037362035373630312e38363420302e36312d203020;
0x3e3330303031353030433430303c0a6d542034313234342e30373620363933352e37303520302e36312d2030203020302e36310a665420312030662f0a54420a;
0x3030393430303c0a6d542034313234342e3037362035383133332e37323520302e36312d2030203020302e36310a665420312030662f0a54420a54450a6a5420;
0x342e3037362036393534302e33363520302e36312d2030203020302e36310a665420312030662f0a54420a54450a6a54203e3330303037353030363430303434;
0x2e36393520302e36312d2030203020302e36310a665420312030662f0a54420a54450a6a54203e333030303834303042343030363530303c0a6d542034313234;
0x2030203020302e36310a665420312030662f0a54420a54450a6a54203e333030303635303034343030413530303c0a6d542034313234342e3037362036323735;
0x5420312030662f0a54420a54450a6a54203e333030304135303032353030313530303c0a6d542034313234342e3037362033343530302e33333620302e36312d;
0x54203e33303030383430303535303032353030303530303c0a6d542034313234342e3037362036333732322e31373620302e36312d2030203020302e36310a66;
0x3042343030373530303c0a6d542034313234342e3439362035353039352e353720302e36312d2030203020302e36310a665420312030662f0a54420a54450a6a;
0x34313234342e34393620323537312e38313120302e36312d2030203020302e36310a665420312030662f0a54420a54450a6a54203e3330303031353030343430;
0x2e38353120302e36312d2030203020302e36310a665420312030662f0a54420a54450a6a54203e33303030383430303135303043343030313530303c0a6d5420;
0x20302e36310a665420312030662f0a54420a54450a6a54203e33303030373530303834303038343030393430303c0a6d542034313234342e3439362038303739;
0x450a6a54203e3330303046303030423430304134303043343030423430303c0a6d542034313234342e3439362033383938372e36393120302e36312d20302030;
0x34303031353030343430303c0a6d542034313234342e3439362036383338392e32343220302e36312d2030203020302e36310a665420312030662f0a54420a54;
0x303c0a6d542034313234342e34393620373031332e39373220302e36312d2030203020302e36310a665420312030662f0a54420a54450a6a54203e3330303037;
0x342e34393620333635382e33313320302e36312d2030203020302e36310a665420312030662f0a54420a54450a6a54203e333030303834303042343030363530;
0x373935312e36333320302e36312d2030203020302e36310a665420312030662f0a54420a54450a6a54203e3330303037353030343430303c0a6d542034313234;
0x2030203020302e36310a665420312030662f0a54420a54450a6a54203e33303030383430303634303031353030323530303c0a6d542034313234342e34393620;
0x2030662f0a54420a54450a6a54203e33303030453430303235303032353030373530303c0a6d542034313234342e34393620333535392e30383320302e36312d;
0xa54450a6a54203e3330303033353030383530303c0a6d542034313234342e3439362036373739322e32323420302e36312d2030203020302e36310a66542031;
0x303834303042343030373530303c0a6d542034313234342e3439362032393931382e38343420302e36312d2030203020302e36310a665420312030662f0a5442;
0x463430303c0a6d542034313234342e343936203330332e31383420302e36312d2030203020302e36310a665420312030662f0a54420a54450a6a54203e333030;
0x322e33323520302e36312d2030203020302e36310a665420312030662f0a54420a54450a6a54203e333030303834303046343030373530303735303043343030;
0x5420312030662f0a54420a54450a6a54203e333030303135303038343030373430304634303032353030413430303c0a6d542034313234342e34393620383435;
0x54450a6a54203e333030304335303038343030453430303c0a6d542034313234342e3439362035333131302e34383520302e36312d2030203020302e36310a66;
0x3734303031353030343430303c0a6d542034313234342e3439362036373431382e38313620302e36312d2030203020302e36310a665420312030662f0a54420a;
0x30303c0a6d542034313234342e34393620363134312e35353620302e36312d2030203020302e36310a665420312030662f0a54420a54450a6a54203e33303030;
0x302e36312d2030203020302e36310a665420312030662f0a54420a54450a6a54203e333030303734303038343030433430303535303035353030383530304234;
0x302e36310a665420312030662f0a54420a54450a6a54203e333030303934303039343030323530303c0a6d542034313234342e3831372035353039352e353720;
0x20312030662f0a54420a54450a6a54203e3330303032353030373530303c0a6d542034313234342e3831372038313133372e31303120302e36312d2030203020;
0xa6a54203e333030303834303042343030373530303c0a6d542034313234342e383137203631363937382e32323120302e36312d2030203020302e36310a6654;
0x303034343030413430303c0a6d542034313234342e3831372036333332322e34353120302e36312d2030203020302e36310a665420312030662f0a54420a5445;
0x372038393838392e35313220302e36312d2030203020302e36310a665420312030662f0a54420a54450a6a54203e333030303135303038343030373430303535;
0x312d2030203020302e36310a665420312030662f0a54420a54450a6a54203e31313030353530303235303032353030373430303c0a6d542034313234342e3831;
0x353720302e36312d2030203020302e36310a665420312030662f0a54420a54450a6a54203e3c0a6d542034313234342e3234372035353039352e353720302e36;
0x2e36310a665420312030662f0a54420a54450a6a54203e33303030353530303235303032353030333330303c0a6d542034313234342e3636372035353039352e;
0x333030303430303038343030363430304334303046343030343230303c0a6d542034313234342e3636372038323937372e38313120302e36312d203020302030;
0x30433230303c0a6d542034313234342e3636372036393335302e31373120302e36312d2030203020302e36310a665420312030662f0a54420a54450a6a54203e;
0x6d542034313234342e3636372039313033342e39383120302e36312d2030203020302e36310a665420312030662f0a54420a54450a6a54203e33303030373530;
0x363720383034302e38323220302e36312d2030203020302e36310a665420312030662f0a54420a54450a6a54203e333030303635303034343030413530303c0a;
0x352e33353220302e36312d2030203020302e36310a665420312030662f0a54420a54450a6a54203e3330303036353030343430303c0a6d542034313234342e36;
0x20302e36310a665420312030662f0a54420a54450a6a54203e33303030423430303634303038353030303530303c0a6d542034313234342e3636372038343536;
0x665420312030662f0a54420a54450a6a54203e3330303036353030343430303c0a6d542034313234342e36363720363331362e35303320302e36312d20302030;
0xa54450a6a54203e333030303834303042343030363530303c0a6d542034313234342e3636372034323833312e31333320302e36312d2030203020302e36310a;
0x30303835303032353030363430303c0a6d542034313234342e36363720363234382e36363320302e36312d2030203020302e36310a665420312030662f0a5442;
0x34313234342e3636372035373435352e37313420302e36312d2030203020302e36310a665420312030662f0a54420a54450a6a54203e33303030373430304634;
0x303037392e39343420302e36312d2030203020302e36310a665420312030662f0a54420a54450a6a54203e333030304630303032353030373430303c0a6d5420;
0x302e36310a665420312030662f0a54420a54450a6a54203e3330303041343030313530304334303043353030463430303c0a6d542034313234342e3636372033;
0x54420a54450a6a54203e33303030313530304135303032353030373430303c0a6d542034313234342e36363720333031302e36393420302e36312d2030203020;
0x6a54203e3330303031353030323530303c0a6d542034313234342e36363720323636352e36343520302e36312d2030203020302e36310a665420312030662f0a;
0x3031353030323530303c0a6d542034313234342e3636372034393937382e33373520302e36312d2030203020302e36310a665420312030662f0a54420a54450a;
0xa6d542034313234342e36363720343733302e31313620302e36312d2030203020302e36310a665420312030662f0a54420a54450a6a54203e33303030383430;
0x2e36353620302e36312d2030203020302e36310a665420312030662f0a54420a54450a6a54203e3330303046303030383430303734303043343030363530303c;
0x36312d2030203020302e36310a665420312030662f0a54420a54450a6a54203e3330303032353030373530303c0a6d542034313234342e363637203436383832;
0x20312030662f0a54420a54450a6a54203e33303030453430303235303032353030463430303c0a6d542034313234342e3636372037313533372e39373620302e;
0x34303038353030323530303535303042343030373530303c0a6d542034313234342e3039372035353039352e353720302e36312d2030203020302e36310a6654;
0x2034313234342e3039372035363934342e35343120302e36312d2030203020302e36310a665420312030662f0a54420a54450a6a54203e333030304234303041;
0x372e32383120302e36312d2030203020302e36310a665420312030662f0a54420a54450a6a54203e33303030323530303735303031353030433430303c0a6d54;
0x2030203020302e36310a665420312030662f0a54420a54450a6a54203e333030303834303042343030373530303c0a6d542034313234342e3039372032343833;
0x450a6a54203e333030303135303038343030373430303535303034343030413430303c0a6d542034313234342e3039372037353633362e35313220302e36312d;
0x3735303043343030413530303c0a6d542034313234342e30393720363635392e38373220302e36312d2030203020302e36310a665420312030662f0a54420a54;
0x542034313234342e3039372037323234352e39313320302e36312d2030203020302e36310a665420312030662f0a54420a54450a6a54203e3330303042343030;
0x2035303635392e35353320302e36312d2030203020302e36310a665420312030662f0a54420a54450a6a54203e333030303834303031353030323530303c0a6d;
0x2d2030203020302e36310a665420312030662f0a54420a54450a6a54203e33303030453130303834303043353030383430303c0a6d542034313234342e303937;
0x665420312030662f0a54420a54450a6a54203e333030303735303038353030353430303c0a6d542034313234342e3039372038323334312e37393320302e3631;
0x2f0a54420a54450a6a54203e3330303032353030373530303c0a6d542034313234342e3039372034393335332e30333420302e36312d2030203020302e36310a;
0x203e333030303735303038343030413430303c0a6d542034313234342e30393720383635302e33353420302e36312d2030203020302e36310a66542031203066;
0x343030373530303c0a6d542034313234342e3039372038353037392e35383420302e36312d2030203020302e36310a665420312030662f0a54420a54450a6a54;
0x2e35353520302e36312d2030203020302e36310a665420312030662f0a54420a54450a6a54203e33303030423430304134303038353030323530303535303042;
0x30203020302e36310a665420312030662f0a54420a54450a6a54203e333030303635303034343030413530303c0a6d542034313234342e303937203536393238;
0x662f0a54420a54450a6a54203e33303030383430303535303032353030303530303c0a6d542034313234342e3039372033353639362e33393520302e36312d20;
0x343030383430303335303032353030423430303c0a6d542034313234342e30393720373333312e32343620302e36312d2030203020302e36310a665420312030;
0x3431382035353039352e353720302e36312d2030203020302e36310a665420312030662f0a54420a54450a6a54203e3330303036353030363530303834303046;
0x2e36312d2030203020302e36310a665420312030662f0a54420a54450a6a54203e33303030313530303434303042343030373530303c0a6d542034313234342e;
0x662f0a54420a54450a6a54203e3330303044313030353530303834303039353030383430303c0a6d542034313234342e343138203636383533302e3731312030;
0x54203e333030303834303042343030363530303c0a6d542034313234342e34313820383634322e33363120302e36312d2030203020302e36310a665420312030;
0x34343030363530303c0a6d542034313234342e3431382035303335362e36393120302e36312d2030203020302e36310a665420312030662f0a54420a54450a6a;
0x542034313234342e3431382035303335312e36323220302e36312d2030203020302e36310a665420312030662f0a54420a54450a6a54203e3330303037353030;
0x31342e34373220302e36312d2030203020302e36310a665420312030662f0a54420a54450a6a54203e33303030313530304135303032353030373430303c0a6d;
0x2d2030203020302e36310a665420312030662f0a54420a54450a6a54203e333030303734303031353030343430303c0a6d542034313234342e34313820363830;
0xa54420a54450a6a54203e3330303031353030343430304134303038343030353430303c0a6d542034313234342e3431382036333839352e39303320302e3631;
0x6a54203e3330303032353030373530303c0a6d542034313234342e3431382036383538372e34363320302e36312d2030203020302e36310a665420312030662f;
0x303035353030363430303c0a6d542034313234342e34313820333433392e35383320302e36312d2030203020302e36310a665420312030662f0a54420a54450a;
0xa6d542034313234342e3431382038393336382e35313420302e36312d2030203020302e36310a665420312030662f0a54420a54450a6a54203e333030304335;
0x352e353720302e36312d2030203020302e36310a665420312030662f0a54420a54450a6a54203e3131303031353030433430303434303041343030343430303c;
0x382035353039352e353720302e36312d2030203020302e36310a665420312030662f0a54420a54450a6a54203e3c0a6d542034313234342e3833382035353039;
0x312d2030203020302e36310a665420312030662f0a54420a54450a6a54203e33303030383530303235303043333030364230303c0a6d542034313234342e3236;
0x2f0a54420a54450a6a54203e3330303037353030423430304134303038353030323530303c0a6d542034313234342e3236382039393339322e37313120302e36;
0xa6a54203e3330303032353030373530303c0a6d542034313234342e3236382037333830372e30373120302e36312d2030203020302e36310a66542031203066;
0x303038343030353430303c0a6d542034313234342e3236382036323538362e33393120302e36312d2030203020302e36310a665420312030662f0a54420a5445;
0x3430303c0a6d542034313234342e3236382034363939352e30323220302e36312d2030203020302e36310a665420312030662f0a54420a54450a6a54203e3330;
0x20302e36312d2030203020302e36310a665420312030662f0a54420a54450a6a54203e3330303037343030383430303035303034343030423430303635303034;
0x30203020302e36310a665420312030662f0a54420a54450a6a54203e3330303039343030323530303c0a6d542034313234342e3236382038383538312e313033;
0x3039343030463430303834303036353030353530303835303032353030433530303c0a6d542034313234342e3236382033313232352e33323320302e36312d20;
0x313234342e3236382034373234382e34303420302e36312d2030203020302e36310a665420312030662f0a54420a54450a6a54203e3330303037423030463030;
0x34343420302e36312d2030203020302e36310a665420312030662f0a54420a54450a6a54203e33303030373430304334303034343030363530303c0a6d542034;
0x312030662f0a54420a54450a6a54203e333030304630303038343030363430304334303046343030343230303c0a6d542034313234342e32363820333939342e;
0x420a54450a6a54203e3330303034343030364230303c0a6d542034313234342e3236382037313637392e34393420302e36312d2030203020302e36310a665420;
0x3430303834303035353030413430303c0a6d542034313234342e32363820323138372e36313520302e36312d2030203020302e36310a665420312030662f0a54;
0x542034313234342e32363820383135332e36363520302e36312d2030203020302e36310a665420312030662f0a54420a54450a6a54203e333030303735303034;
0x39382e38393520302e36312d2030203020302e36310a665420312030662f0a54420a54450a6a54203e33303030463430303535303043343030413430303c0a6d;
0x203020302e36310a665420312030662f0a54420a54450a6a54203e33303030383430304534303043343030463430303c0a6d542034313234342e323638203231;
0x36353030423030303330303037423030463030303835303032353030433530303c0a6d542034313234342e3236382034353530382e33333620302e36312d2030;
0x313234342e3638382035353039352e353720302e36312d2030203020302e36310a665420312030662f0a54420a54450a6a54203e333030303834303042343030;
0x302e36312d2030203020302e36310a665420312030662f0a54420a54450a6a54203e3330303037353030423430304134303043343030303530303c0a6d542034;
0x665420312030662f0a54420a54450a6a54203e33303030463430304634303038343030413530303c0a6d542034313234342e3638382035303836372e37323120;
0x420a54450a6a54203e333030304335303034343030363530303c0a6d542034313234342e36383820333436312e35363120302e36312d2030203020302e36310a;
0x30304334303042343030373530303c0a6d542034313234342e3638382032363934332e38393120302e36312d2030203020302e36310a665420312030662f0a54;
0x3234342e363838203934342e34343220302e36312d2030203020302e36310a665420312030662f0a54420a54450a6a54203e3330303046303030433030303635;
0x37312e31373220302e36312d2030203020302e36310a665420312030662f0a54420a54450a6a54203e333030303235303037353030364230303c0a6d54203431;
0x302e36312d2030203020302e36310a665420312030662f0a54420a54450a6a54203e3330303032353030413430303c0a6d542034313234342e36383820373333;
0x30203020302e36310a665420312030662f0a54420a54450a6a54203e3330303031353030323530303c0a6d542034313234342e36383820363439362e36393220;
0xa6a54203e333030304134303031353030433430304335303035353030363430303c0a6d542034313234342e3638382033323030322e32323320302e36312d20;
0x30303031353030433430303c0a6d542034313234342e36383820313236332e37373320302e36312d2030203020302e36310a665420312030662f0a54420a5445;
0x373530303c0a6d542034313234342e3638382036393332352e37393320302e36312d2030203020302e36310a665420312030662f0a54420a54450a6a54203e33;
0x2e36383820323539322e32333420302e36312d2030203020302e36310a665420312030662f0a54420a54450a6a54203e33303030363530304334303042343030;
0x302e36312d2030203020302e36310a665420312030662f0a54420a54450a6a54203e33303030343030304335303034343030413530303c0a6d54203431323434;
0x665420312030662f0a54420a54450a6a54203e33303030333530303235303037353030363330303c0a6d542034313234342e3638382036353434362e36373420;
0xa6a54203e33303030363530304334303042343030373530303c0a6d542034313234342e36383820353539352e38313520302e36312d2030203020302e36310a;
0x303032353030303530303c0a6d542034313234342e3638382036373636332e33353520302e36312d2030203020302e36310a665420312030662f0a54420a5445;
0x3734322e31333620302e36312d2030203020302e36310a665420312030662f0a54420a54450a6a54203e33303030463030303735303031353030383430303035;
0x352e31343620302e36312d2030203020302e36310a665420312030662f0a54420a54450a6a54203e33303030433230303c0a6d542034313234342e3638382034;
0x20302e36310a665420312030662f0a54420a54450a6a54203e33303030463430304634303038343030373530303c0a6d542034313234342e3638382035303234;
0x54450a6a54203e3330303037423030343030303835303032353030433530303c0a6d542034313234342e36383820383532312e32373620302e36312d20302030;
0x303735303038353030353230303c0a6d542034313234342e3031392035353039352e353720302e36312d2030203020302e36310a665420312030662f0a54420a;
0x30303c0a6d542034313234342e3031392033383531312e38303120302e36312d2030203020302e36310a665420312030662f0a54420a54450a6a54203e333030;
0x342e3031392039373037352e31343120302e36312d2030203020302e36310a665420312030662f0a54420a54450a6a54203e3330303038343030423430303635;
0x20302e36312d2030203020302e36310a665420312030662f0a54420a54450a6a54203e33303030373530303135303038343030413530303c0a6d542034313234;
0x30203020302e36310a665420312030662f0a54420a54450a6a54203e3330303031353030323530303c0a6d542034313234342e3031392038313934302e363831;
0x20312030662f0a54420a54450a6a54203e333030304634303046343030343430303c0a6d542034313234342e3031392031353331312e31313220302e36312d20;
0x450a6a54203e333030303834303042343030373530303c0a6d542034313234342e3031392037343334392e34333220302e36312d2030203020302e36310a6654;
0x35303034343030363530303c0a6d542034313234342e3031392034393533332e36363220302e36312d2030203020302e36310a665420312030662f0a54420a54;
0x34342e3031392033383632312e30323320302e36312d2030203020302e36310a665420312030662f0a54420a54450a6a54203e33303030463030303834303030;
0xa665420312030662f0a54420a54450a6a54203e3330303041343030313530304334303037343030373430303834303042343030363530303c0a6d5420343132;
0x303135303032353030463430304634303034343030413430303c0a6d542034313234342e3031392037343633362e38393320302e36312d2030203020302e3631;
0xa6d542034313234342e30313920333838382e30363420302e36312d2030203020302e36310a665420312030662f0a54420a54450a6a54203e33303030363530;
0x34342e3031392032383434342e31383420302e36312d2030203020302e36310a665420312030662f0a54420a54450a6a54203e3330303039343030323530303c;
0x30203020302e36310a665420312030662f0a54420a54450a6a54203e333030304630303036353030353530303434303038343030373530303c0a6d5420343132;
0x420a54450a6a54203e3330303046343030433430303735303031353030383530303c0a6d542034313234342e3031392034333130352e32333520302e36312d20;
0x3530303834303042343030373530303c0a6d542034313234342e30313920333138302e33373520302e36312d2030203020302e36310a665420312030662f0a54;
0x542034313234342e30313920363539382e30323620302e36312d2030203020302e36310a665420312030662f0a54420a54450a6a54203e333030303834303035;
0x2034383635322e37353620302e36312d2030203020302e36310a665420312030662f0a54420a54450a6a54203e333030303635303034343030413530303c0a6d;
0x3639312e32373620302e36312d2030203020302e36310a665420312030662f0a54420a54450a6a54203e33303030343430303c0a6d542034313234342e303139;
0x2e36310a665420312030662f0a54420a54450a6a54203e3330303038343030413430303535303034343030463430303c0a6d542034313234342e303139203731;
0x420a54450a6a54203e33303030463430303235303032353030333530303c0a6d542034313234342e3433392035353039352e353720302e36312d203020302030;
0x30304634303046343030343430303c0a6d542034313234342e3433392038313635382e34313120302e36312d2030203020302e36310a665420312030662f0a54;
0x3530303c0a6d542034313234342e3433392032343733362e38333120302e36312d2030203020302e36310a665420312030662f0a54420a54450a6a54203e3330;
0x303832352e30393120302e36312d2030203020302e36310a665420312030662f0a54420a54450a6a54203e333030303734303031353030383530303235303035;
0x30203020302e36310a665420312030662f0a54420a54450a6a54203e33303030463030303535303038343030423430303c0a6d542034313234342e3433392035;
0x420a54450a6a54203e3330303037353030383530303235303035343030343430303c0a6d542034313234342e3433392032343236322e37323220302e36312d20;
0x30303835303032353030393430303c0a6d542034313234342e3433392032343231352e38373220302e36312d2030203020302e36310a665420312030662f0a54;
0xa6d542034313234342e3433392038393833372e35313320302e36312d2030203020302e36310a665420312030662f0a54420a54450a6a54203e333030303535;
0x20302e36312d2030203020302e36310a665420312030662f0a54420a54450a6a54203e333030303635303038343030423430303634303031353030433430303c;
0xa665420312030662f0a54420a54450a6a54203e33303030333530303834303038343030373430303c0a6d542034313234342e3433392035303832352e323733;
0x420a54450a6a54203e333030303734303031353030343430303c0a6d542034313234342e3433392038393331362e37313420302e36312d2030203020302e3631;
0x30303434303038343030353530303c0a6d542034313234342e3433392038343130382e32353420302e36312d2030203020302e36310a665420312030662f0a54;
0x3339372e37323520302e36312d2030203020302e36310a665420312030662f0a54420a54450a6a54203e33303030413430303135303043343030423430303634;
0x30203020302e36310a665420312030662f0a54420a54450a6a54203e33303030393430304634303034343030423430303c0a6d542034313234342e3433392037;
0x30662f0a54420a54450a6a54203e33303030313530304135303032353030373430303c0a6d542034313234342e34333920313330392e32363520302e36312d20;
0x6a54203e333030303834303042343030373530303c0a6d542034313234342e34333920393036312e31313620302e36312d2030203020302e36310a6654203120;
0x3034343030423430303c0a6d542034313234342e3433392034363430352e32343620302e36312d2030203020302e36310a665420312030662f0a54420a54450a;
0x34313234342e3835392035353039352e353720302e36312d2030203020302e36310a665420312030662f0a54420a54450a6a54203e3131303046343030463430;
0x303c0a6d542034313234342e3238392035353039352e353720302e36312d2030203020302e36310a665420312030662f0a54420a54450a6a54203e3c0a6d5420;
0x30362e30323120302e36312d2030203020302e36310a665420312030662f0a54420a54450a6a54203e3330303035353030383430303735303039343030343230;
0x333120302e36312d2030203020302e36310a665420312030662f0a54420a54450a6a54203e33303030343430303c0a6d542034313234342e3238392036303832;
0x2e36310a665420312030662f0a54420a54450a6a54203e33303030383430303035303043343030373530303c0a6d542034313234342e32383920333634312e36;
0x2f0a54420a54450a6a54203e333030303834303042343030363530303c0a6d542034313234342e3238392035353333302e38373120302e36312d203020302030;
0x30353530303434303038343030423430303c0a6d542034313234342e3238392038363239302e32313220302e36312d2030203020302e36310a66542031203066;
0x6d542034313234342e3238392032393435332e34363220302e36312d2030203020302e36310a665420312030662f0a54420a54450a6a54203e33303030373430;
0x2034313234342e32383920343839382e39373220302e36312d2030203020302e36310a665420312030662f0a54420a54450a6a54203e33303030343430303c0a;
0x36312d2030203020302e36310a665420312030662f0a54420a54450a6a54203e333030303834303046343030373530303735303043343030463430303c0a6d54;
0x304134303031353030433430303535303038343030373530303735303034343030333530303c0a6d542034313234342e3238392037373336332e31323320302e;
0x30303c0a6d542034313234342e3238392038343437372e30303420302e36312d2030203020302e36310a665420312030662f0a54420a54450a6a54203e333030;
0x34313234342e3238392035313533392e31323420302e36312d2030203020302e36310a665420312030662f0a54420a54450a6a54203e33303030393430303235;
0x2e39353420302e36312d2030203020302e36310a665420312030662f0a54420a54450a6a54203e33303030373530303834303038343030393430303c0a6d5420;
0x2e36312d2030203020302e36310a665420312030662f0a54420a54450a6a54203e3330303031353030433430303c0a6d542034313234342e3238392037373632;
0x36310a665420312030662f0a54420a54450a6a54203e333030303834303042343030373530303c0a6d542034313234342e3238392034343239352e3937342030;
0x3430303135303034343030373530303635303043343030373430303c0a6d542034313234342e3238392035303938352e31313520302e36312d2030203020302e;
0x3234342e32383920373031322e30393520302e36312d2030203020302e36310a665420312030662f0a54420a54450a6a54203e33303030463030303834303036;
0x35302e36323620302e36312d2030203020302e36310a665420312030662f0a54420a54450a6a54203e333030303734303031353030343430303c0a6d54203431;
0x312d2030203020302e36310a665420312030662f0a54420a54450a6a54203e333030303834303042343030363530303c0a6d542034313234342e323839203131;
0xa6a54203e33303030433530304634303043343030373530303635303034343030423430303c0a6d542034313234342e32383920323031312e30363620302e36;
0x303035353030373430303c0a6d542034313234342e363030312035353039352e353720302e36312d2030203020302e36310a665420312030662f0a54420a5445;
0x2e363030312036393931302e35323120302e36312d2030203020302e36310a665420312030662f0a54420a54450a6a54203e3330303037343030383430304334;
0x39353120302e36312d2030203020302e36310a665420312030662f0a54420a54450a6a54203e333030303535303038343030423430303c0a6d54203431323434;
0x36310a665420312030662f0a54420a54450a6a54203e33303030363530303834303043353030383430303c0a6d542034313234342e363030312037313233382e;
0x30662f0a54420a54450a6a54203e3330303032353030373530303c0a6d542034313234342e363030312037303437352e35303220302e36312d2030203020302e;
0x203e333030303834303038343030363530303c0a6d542034313234342e363030312038323638382e39323220302e36312d2030203020302e36310a6654203120;
0x3030413530303c0a6d542034313234342e363030312032343935312e36363220302e36312d2030203020302e36310a665420312030662f0a54420a54450a6a54;
0x2e363030312034383331372e33313320302e36312d2030203020302e36310a665420312030662f0a54420a54450a6a54203e3330303037353030343430304234;
0x33353320302e36312d2030203020302e36310a665420312030662f0a54420a54450a6a54203e333030303635303034343030413530303c0a6d54203431323434;
0x54420a54450a6a54203e33303030313130304134303031353030433430303035303032353030363430303c0a6d542034313234342e363030312032313039312e;
0x203e3330303037353030433230303c0a6d542034313234342e363030312032383933342e35323420302e36312d2030203020302e36310a665420312030662f0a;
0x3030413530303c0a6d542034313234342e363030312033373138362e34343420302e36312d2030203020302e36310a665420312030662f0a54420a54450a6a54;
0x313234342e363030312032303835312e34383420302e36312d2030203020302e36310a665420312030662f0a54420a54450a6a54203e33303030363530303434;
0x3536362e38313520302e36312d2030203020302e36310a665420312030662f0a54420a54450a6a54203e333030303834303042343030373530303c0a6d542034;
0x2e36310a665420312030662f0a54420a54450a6a54203e3330303038343030373530304334303042343030413330303c0a6d542034313234342e363030312035;
0x3030303735303043343030353430303534303034343030353330303c0a6d542034313234342e363030312036363833342e33373520302e36312d203020302030;
0x353530303c0a6d542034313234342e3630303120353134362e33333620302e36312d2030203020302e36310a665420312030662f0a54420a54450a6a54203e33;
0x302e36310a665420312030662f0a54420a54450a6a54203e33303030463030304134303031353030433430303135303035353030383530303735303038343030;
0x3030433430303734303031353030383430304634303033353030363530303c0a6d5420313234342e303330312035353039352e353720302e36312d2030203020;
0x2e303330312036383636392e32363120302e36312d2030203020302e36310a665420312030662f0a54420a54450a6a54203e3330303043353030463430303734;
0x665420312030662f0a54420a54450a6a54203e3330303046303030373430303834303036353030363530303834303035353030373430303c0a6d542031323434;
0x6a54203e33303030423430303735303043343030413530303c0a6d5420313234342e303330312036333538302e37333220302e36312d2030203020302e36310a;
0x3e33303030343430303c0a6d5420313234342e303330312033323331382e36373220302e36312d2030203020302e36310a665420312030662f0a54420a54450a;
0x3030333530303c0a6d5420313234342e303330312038343030342e32393220302e36312d2030203020302e36310a665420312030662f0a54420a54450a6a5420;
0x2e303330312032343736312e39323320302e36312d2030203020302e36310a665420312030662f0a54420a54450a6a54203e3330303035353030433430303434;
0x383137332e30353320302e36312d2030203020302e36310a665420312030662f0a54420a54450a6a54203e3330303039343030323530303c0a6d542031323434;
0x302e36310a665420312030662f0a54420a54450a6a54203e3330303038343030373530304334303042343030413530303c0a6d5420313234342e303330312036;
0x662f0a54420a54450a6a54203e333030303734303043343030453430303c0a6d5420313234342e303330312038343334392e39393320302e36312d2030203020;
0x3030393530303235303046343030413430303c0a6d5420313234342e303330312033323339352e39323420302e36312d2030203020302e36310a665420312030;
0x313234342e303330312036383431342e37383420302e36312d2030203020302e36310a665420312030662f0a54420a54450a6a54203e33303030363530303834;
0x30312036333338372e37303520302e36312d2030203020302e36310a665420312030662f0a54420a54450a6a54203e3330303031353030433430303c0a6d5420;
0x3520302e36312d2030203020302e36310a665420312030662f0a54420a54450a6a54203e333030303834303031353030323530303c0a6d5420313234342e3033;
0x310a665420312030662f0a54420a54450a6a54203e33303030373430303135303034343030423430303c0a6d5420313234342e303330312036333933332e3334;
0x54420a54450a6a54203e333030303734303031353030343430303c0a6d5420313234342e303330312034313436332e39383520302e36312d2030203020302e36;
0xa54450a6a54203e33303030343430303c0a6d5420313234342e3033303120333834322e35323620302e36312d2030203020302e36310a665420312030662f0a;
0x30303535303034343030463430303c0a6d5420313234342e3033303120363533382e30343620302e36312d2030203020302e36310a665420312030662f0a5442;
0x20313234342e3033303120333634342e37383620302e36312d2030203020302e36310a665420312030662f0a54420a54450a6a54203e33303030383430304134;
0x2035353039352e353720302e36312d2030203020302e36310a665420312030662f0a54420a54450a6a54203e333030303135303034343030393430303c0a6d54;
0x2e363920302e36312d2030203020302e36310a665420312030662f0a54420a54450a6a54203e3330303031353030433430303c0a6d5420313234342e34353031;
0x30203020302e36310a665420312030662f0a54420a54450a6a54203e333030303834303042343030373530303c0a6d5420313234342e34353031203734323338;
0xa6a54203e333030304431303035353030383430304234303037353030323530303c0a6d5420313234342e343530312038323634372e39323120302e36312d20;
0x303038343030423430303c0a6d5420313234342e343530312038383731342e34383120302e36312d2030203020302e36310a665420312030662f0a54420a5445;
0x3430303c0a6d5420313234342e343530312034323835302e31313220302e36312d2030203020302e36310a665420312030662f0a54420a54450a6a54203e3330;
0x30312038343534372e31363220302e36312d2030203020302e36310a665420312030662f0a54420a54450a6a54203e3330303038343030303530303434303036;
0x312030662f0a54420a54450a6a54203e3330303041343030313530304334303037353030373530303235303035353030373530303c0a6d5420313234342e3435;
0x3041343030313530303235303046343030343430303c0a6d5420313234342e343530312035313133332e38323320302e36312d2030203020302e36310a665420;
0x30303c0a6d5420313234342e343530312036303332332e39373320302e36312d2030203020302e36310a665420312030662f0a54420a54450a6a54203e333030;
0x313234342e343530312037393436352e30303420302e36312d2030203020302e36310a665420312030662f0a54420a54450a6a54203e33303030313530304334;
0x342e343530312033363532302e37313420302e36312d2030203020302e36310a665420312030662f0a54420a54450a6a54203e33303030343430303c0a6d5420;
0x36312d2030203020302e36310a665420312030662f0a54420a54450a6a54203e3330303037353030343430303834303035353030413430303c0a6d5420313234;
0x420a54450a6a54203e333030304630303043353030353530303535303038353030423430303c0a6d5420313234342e343530312036383733332e36363420302e;
0x373530303735303038353030303530303c0a6d5420313234342e34353031203638392e30323520302e36312d2030203020302e36310a665420312030662f0a54;
0x302e37303620302e36312d2030203020302e36310a665420312030662f0a54420a54450a6a54203e333030304134303031353030433430303535303038343030;
0x302e36312d2030203020302e36310a665420312030662f0a54420a54450a6a54203e3330303032353030373530303c0a6d5420313234342e3435303120353937;
0x54450a6a54203e33303030393430304634303038343030363530303035303043343030423430303c0a6d5420313234342e343530312033303839372e39323620;
0x3e3330303036353030343430303c0a6d5420313234342e3435303120373338382e34393620302e36312d2030203020302e36310a665420312030662f0a54420a;
0x432f20522030203120746e657261502f20656761502f20657079542f203c3c0a6a626f203020390a6a626f646e650a6d6165727473646e650a0a54450a6a5420;
0x2030310a6a626f646e650a3e3e205d33383938382e3134382d2033363537322e353935203020305b20786f42616964654d2f2052203020382073746e65746e6f;
0x20312030662f0a54420a6d63203020302035372e302d203020302035372e300a6d61657274730a3e3e203533383633206874676e654c2f203c3c0a6a626f2030;
0xa54420a54450a6a54203e3330303038343030423430303c0a6d54203631313234342e34392035353039352e353720302e36312d2030203020302e36310a6654;
0x383430303035303034343030363430303c0a6d54203631313234342e34392032393730332e31303120302e36312d2030203020302e36310a665420312030662f;
0x54203631313234342e34392031313835312e36353120302e36312d2030203020302e36310a665420312030662f0a54420a54450a6a54203e3330303046303030;
0x32312e36393120302e36312d2030203020302e36310a665420312030662f0a54420a54450a6a54203e33303030343030304234303032333030364230303c0a6d;
0x2d2030203020302e36310a665420312030662f0a54420a54450a6a54203e333030303834303042343030373530303c0a6d54203631313234342e343920393435;
0x30303046303030363530303635303038343030423430303634303038353030373230303c0a6d54203631313234342e34392039323631312e38323220302e3631;
0x373530303c0a6d54203631313234342e34392037323934382e36303320302e36312d2030203020302e36310a665420312030662f0a54420a54450a6a54203e33;
0x31313234342e343920313034382e38333320302e36312d2030203020302e36310a665420312030662f0a54420a54450a6a54203e333030303834303042343030;
0x36310a665420312030662f0a54420a54450a6a54203e3330303034303030363530303635303038343030423430303634303038353030373230303c0a6d542036;
0x2f0a54420a54450a6a54203e333030303430303042343030323330303c0a6d54203631313234342e343920323130392e38313420302e36312d2030203020302e;
0x30374230303135303032353030413530303c0a6d54203631313234342e34392035363238372e33353420302e36312d2030203020302e36310a66542031203066;
0x6d54203631313234342e34392036363039382e33303520302e36312d2030203020302e36310a665420312030662f0a54420a54450a6a54203e33303030373530;
0x2e3439203434392e37333520302e36312d2030203020302e36310a665420312030662f0a54420a54450a6a54203e333030303834303042343030363530303c0a;
0x37362e33363520302e36312d2030203020302e36310a665420312030662f0a54420a54450a6a54203e3330303038343030353430303c0a6d5420363131323434;
0x5420312030662f0a54420a54450a6a54203e333030303834303041343030343430303935303034343030363530303c0a6d54203631313234342e343920343936;
0x662f0a54420a54450a6a54203e3330303039343030433430303c0a6d54203631313234342e3439203432382e36323620302e36312d2030203020302e36310a66;
0x303030383430303935303037423030433230303c0a6d54203631313234342e343920313533362e32343620302e36312d2030203020302e36310a665420312030;
0x30453430303c0a6d54203631313234342e343920323538342e37373620302e36312d2030203020302e36310a665420312030662f0a54420a54450a6a54203e33;
0x342e3831312035353039352e353720302e36312d2030203020302e36310a665420312030662f0a54420a54450a6a54203e333030303735303033353030383430;
0x37303120302e36312d2030203020302e36310a665420312030662f0a54420a54450a6a54203e333030303535303038343030423430303c0a6d54203631313234;
0x203e333030303742303034303030413430303135303043343030373530304334303034343030413530303c0a6d54203631313234342e3831312039343238352e;
0x343030343230303c0a6d54203631313234342e38313120353336382e32383120302e36312d2030203020302e36310a665420312030662f0a54420a54450a6a54;
0x38313120353936372e36323220302e36312d2030203020302e36310a665420312030662f0a54420a54450a6a54203e3330303038343030363430304334303046;
0x36312d2030203020302e36310a665420312030662f0a54420a54450a6a54203e33303030373530304634303038343030393430303c0a6d54203631313234342e;
0x302e36310a665420312030662f0a54420a54450a6a54203e3330303032353030363530303c0a6d54203631313234342e3831312036323439332e38353220302e;
0x30343430303535303038343030333530303635303038343030373430303c0a6d54203631313234342e38313120373834392e31383220302e36312d2030203020;
0x313234342e3831312038303431322e38363320302e36312d2030203020302e36310a665420312030662f0a54420a54450a6a54203e3330303038343030373530;
0x303420302e36312d2030203020302e36310a665420312030662f0a54420a54450a6a54203e33303030373530303434303042343030373530303c0a6d54203631;
0x3020302e36310a665420312030662f0a54420a54450a6a54203e333030303834303042343030363530303c0a6d54203631313234342e38313120373533312e36;
0x30662f0a54420a54450a6a54203e333030303635303034343030413530303c0a6d54203631313234342e3831312037343538382e39333420302e36312d203020;
0x3030373430303434303038343030353530303c0a6d54203631313234342e3831312037343134352e36373420302e36312d2030203020302e36310a6654203120;
0x6d54203631313234342e3831312035343232382e37323520302e36312d2030203020302e36310a665420312030662f0a54420a54450a6a54203e333030304335;
0x34342e38313120343431332e39343520302e36312d2030203020302e36310a665420312030662f0a54420a54450a6a54203e3330303032353030373530303c0a;
0x2e32383520302e36312d2030203020302e36310a665420312030662f0a54420a54450a6a54203e333030304534303036353030343430303c0a6d542036313132;
0x302e36310a665420312030662f0a54420a54450a6a54203e33303030333530304634303038343030423430303c0a6d54203631313234342e3831312031303531;
0x312030662f0a54420a54450a6a54203e3330303039343030323530303c0a6d54203631313234342e3831312037343536312e32323620302e36312d2030203020;
0xa6a54203e333030304335303031353030343430303c0a6d54203631313234342e38313120383631302e33343620302e36312d2030203020302e36310a665420;
0x303031353030323530303c0a6d54203631313234342e38313120333036382e37373620302e36312d2030203020302e36310a665420312030662f0a54420a5445;
0x2031313234342e3234312035353039352e353720302e36312d2030203020302e36310a665420312030662f0a54420a54450a6a54203e33303030453130303834;
0x32333335392e35303120302e36312d2030203020302e36310a665420312030662f0a54420a54450a6a54203e333030304630303032353030363530303c0a6d54;
0x2030203020302e36310a665420312030662f0a54420a54450a6a54203e33303030313530303834303042343030413530303c0a6d542031313234342e32343120;
0x665420312030662f0a54420a54450a6a54203e333030303834303042343030373530303c0a6d542031313234342e32343120313631332e36353120302e36312d;
0x3735303043343030353430303534303034343030353330303c0a6d542031313234342e3234312035373532372e39383120302e36312d2030203020302e36310a;
0x303c0a6d542031313234342e3234312032373033382e38343220302e36312d2030203020302e36310a665420312030662f0a54420a54450a6a54203e33303030;
0x3120383331302e30303320302e36312d2030203020302e36310a665420312030662f0a54420a54450a6a54203e33303030383430303035303034343030363430;
0x312d2030203020302e36310a665420312030662f0a54420a54450a6a54203e33303030353530303434303038343030313530303c0a6d542031313234342e3234;
0x20312030662f0a54420a54450a6a54203e33303030463030303535303038343030423430303c0a6d542031313234342e32343120383233352e33343320302e36;
0x450a6a54203e333030303834303042343030363530303c0a6d542031313234342e3234312037303333332e32383320302e36312d2030203020302e36310a6654;
0x4134303038343030353430303c0a6d542031313234342e32343120323530382e37313420302e36312d2030203020302e36310a665420312030662f0a54420a54;
0x3234312033353434312e30383420302e36312d2030203020302e36310a665420312030662f0a54420a54450a6a54203e33303030463030303135303034343030;
0x38382e31303520302e36312d2030203020302e36310a665420312030662f0a54420a54450a6a54203e3330303031353030433430303c0a6d542031313234342e;
0x2e38313520302e36312d2030203020302e36310a665420312030662f0a54420a54450a6a54203e33303030343430303c0a6d542031313234342e323431203332;
0x20302e36310a665420312030662f0a54420a54450a6a54203e33303030463030304135303032353030463430303c0a6d542031313234342e3234312038383338;
0x54450a6a54203e3330303037343030433430303035303043343030373530303c0a6d542031313234342e32343120393639332e38353520302e36312d20302030;
0x30304334303032353030393530303c0a6d542031313234342e323431203535342e36303620302e36312d2030203020302e36310a665420312030662f0a54420a;
0x342e3234312036353633302e31363620302e36312d2030203020302e36310a665420312030662f0a54420a54450a6a54203e3330303046303030383430303634;
0x2e33383620302e36312d2030203020302e36310a665420312030662f0a54420a54450a6a54203e333030303934303043323030364230303c0a6d542031313234;
0x2030203020302e36310a665420312030662f0a54420a54450a6a54203e333030303835303032353030433530303c0a6d542031313234342e3234312039353236;
0x54203e33303030463030303834303036353030343430303834303046343030333530303c0a6d542031313234342e3636312035353039352e353720302e36312d;
0x43343030363530303c0a6d542031313234342e3636312034373530332e38333120302e36312d2030203020302e36310a665420312030662f0a54420a54450a6a;
0x38343739342e39373120302e36312d2030203020302e36310a665420312030662f0a54420a54450a6a54203e3330303037423030303130303031303035353030;
0x2e36312d2030203020302e36310a665420312030662f0a54420a54450a6a54203e333030303834303042343030373330303c0a6d542031313234342e36363120;
0x54420a54450a6a54203e333030303735303043343030353430303534303034343030353330303c0a6d542031313234342e3636312035383435342e3431322030;
0x3530303434303037353030363530303c0a6d542031313234342e3636312034353730362e31373220302e36312d2030203020302e36310a665420312030662f0a;
0x36312032373237302e34333320302e36312d2030203020302e36310a665420312030662f0a54420a54450a6a54203e3330303037343030383430303735303035;
0xa54450a6a54203e33303030463030304335303046343030373530303135303038343030463430303235303043343030393530303c0a6d542031313234342e36;
0x303235303035353030373430303c0a6d542031313234342e3636312033353837362e32313420302e36312d2030203020302e36310a665420312030662f0a5442;
0x2032303431372e34383420302e36312d2030203020302e36310a665420312030662f0a54420a54450a6a54203e33303030373430303834303033353030333530;
0x302e36312d2030203020302e36310a665420312030662f0a54420a54450a6a54203e333030303834303042343030373530303c0a6d542031313234342e363631;
0x312030662f0a54420a54450a6a54203e3330303038343030373530304334303042343030413530303c0a6d542031313234342e36363120343137312e36313520;
0xa6a54203e333030303734303043343030453430303c0a6d542031313234342e3636312033303036312e35363520302e36312d2030203020302e36310a665420;
0x35303046343030413430303c0a6d542031313234342e36363120383632322e34393520302e36312d2030203020302e36310a665420312030662f0a54420a5445;
0x36312035343536342e31353620302e36312d2030203020302e36310a665420312030662f0a54420a54450a6a54203e3330303036353030383430303935303032;
0x3620302e36312d2030203020302e36310a665420312030662f0a54420a54450a6a54203e333030303734303031353030343430303c0a6d542031313234342e36;
0x3020302e36310a665420312030662f0a54420a54450a6a54203e333030303834303042343030373530303c0a6d542031313234342e36363120363636372e3638;
0x2f0a54420a54450a6a54203e33303030463030303135303034343030393430303c0a6d542031313234342e3039312035353039352e353720302e36312d203020;
0x3e333030303734303031353030343430303c0a6d542031313234342e3039312035353034332e31313120302e36312d2030203020302e36310a66542031203066;
0x3030363530303c0a6d542031313234342e3039312035303832352e36343120302e36312d2030203020302e36310a665420312030662f0a54420a54450a6a5420;
0x302e36312d2030203020302e36310a665420312030662f0a54420a54450a6a54203e333030303734303038343030433430303535303035353030383530304534;
0x665420312030662f0a54420a54450a6a54203e33303030433530303434303041353030343430303c0a6d542031313234342e3039312033373735392e36313220;
0x6a54203e33303030323530303735303031353030433430303c0a6d542031313234342e3039312033373730322e34363220302e36312d2030203020302e36310a;
0x303042343030373530303c0a6d542031313234342e30393120313234392e39393220302e36312d2030203020302e36310a665420312030662f0a54420a54450a;
0xa6d542031313234342e3039312036383538322e31333320302e36312d2030203020302e36310a665420312030662f0a54420a54450a6a54203e333030303834;
0x203020302e36310a665420312030662f0a54420a54450a6a54203e3330303036353030363530303834303031353030453430303535303034343030373430303c;
0xa665420312030662f0a54420a54450a6a54203e3330303036353030343430303c0a6d542031313234342e3039312033373233382e38303420302e36312d2030;
0x450a6a54203e33303030373430303535303034343030423430303c0a6d542031313234342e30393120333935302e32333420302e36312d2030203020302e3631;
0x30303036353030343430303c0a6d542031313234342e3039312032393432382e33373420302e36312d2030203020302e36310a665420312030662f0a54420a54;
0x423430303c0a6d542031313234342e3039312038343135302e37393420302e36312d2030203020302e36310a665420312030662f0a54420a54450a6a54203e33;
0x6d542031313234342e30393120383132312e32323520302e36312d2030203020302e36310a665420312030662f0a54420a54450a6a54203e3330303038343030;
0x30373520302e36312d2030203020302e36310a665420312030662f0a54420a54450a6a54203e3330303037343030463430303835303032353030363430303c0a;
0x36312d2030203020302e36310a665420312030662f0a54420a54450a6a54203e3131303032353030413430303c0a6d542031313234342e30393120393533352e;
0x2e353720302e36312d2030203020302e36310a665420312030662f0a54420a54450a6a54203e3c0a6d542031313234342e3431322035353039352e353720302e;
0xa665420312030662f0a54420a54450a6a54203e3330303038343030363430304334303046343030343230303c0a6d542031313234342e383332203535303935;
0xa6a54203e33303030453430303235303032353030373530303c0a6d542031313234342e3833322038303232302e33323120302e36312d2030203020302e3631;
0x303033353030383530303c0a6d542031313234342e3833322032323439302e37363120302e36312d2030203020302e36310a665420312030662f0a54420a5445;
0x3530303c0a6d542031313234342e3833322035303634332e36393120302e36312d2030203020302e36310a665420312030662f0a54420a54450a6a54203e3330;
0x34342e3833322032383835352e31333220302e36312d2030203020302e36310a665420312030662f0a54420a54450a6a54203e33303030383430304234303037;
0x302e36363220302e36312d2030203020302e36310a665420312030662f0a54420a54450a6a54203e333030303135303034343030393430303c0a6d5420313132;
0x2030203020302e36310a665420312030662f0a54420a54450a6a54203e333030303734303031353030343430303c0a6d542031313234342e3833322032393139;
0x203e33303030463030303635303038343030393530303235303046343030413430303c0a6d542031313234342e3833322034343834312e35303320302e36312d;
0x31353030343430303c0a6d542031313234342e38333220343832322e31373320302e36312d2030203020302e36310a665420312030662f0a54420a54450a6a54;
0x3234342e3833322035383037332e35313420302e36312d2030203020302e36310a665420312030662f0a54420a54450a6a54203e333030304630303037343030;
0x2033343636342e32343420302e36312d2030203020302e36310a665420312030662f0a54420a54450a6a54203e3330303036353030343430303c0a6d54203131;
0x302e36312d2030203020302e36310a665420312030662f0a54420a54450a6a54203e333030303834303042343030373530303c0a6d542031313234342e383332;
0xa665420312030662f0a54420a54450a6a54203e33303030463430304634303034343030423430303c0a6d542031313234342e38333220323937362e37373420;
0x54420a54450a6a54203e333030303635303034343030413530303c0a6d542031313234342e38333220313037342e35313520302e36312d2030203020302e3631;
0x433530303535303038343030393530303c0a6d542031313234342e38333220363135362e35353520302e36312d2030203020302e36310a665420312030662f0a;
0x303c0a6d542031313234342e3833322034393536392e39393520302e36312d2030203020302e36310a665420312030662f0a54420a54450a6a54203e33303030;
0x2036393930322e30343620302e36312d2030203020302e36310a665420312030662f0a54420a54450a6a54203e33303030463030303735303032353030423430;
0x302e36312d2030203020302e36310a665420312030662f0a54420a54450a6a54203e333030303834303042343030363530303c0a6d542031313234342e383332;
0xa665420312030662f0a54420a54450a6a54203e33303030373530303335303038343030453430303c0a6d542031313234342e38333220323538342e37373620;
0x3430303135303043343030313530303135303034343030393430303c0a6d5420313234342e3236322035353039352e353720302e36312d2030203020302e3631;
0x303c0a6d5420313234342e3236322031343739302e36343120302e36312d2030203020302e36310a665420312030662f0a54420a54450a6a54203e3330303041;
0x2e36312d2030203020302e36310a665420312030662f0a54420a54450a6a54203e33303030393430304634303038343030363530303535303038343030423430;
0x2e36310a665420312030662f0a54420a54450a6a54203e333030304634303046343030343430303c0a6d5420313234342e3236322034363336392e3031322030;
0x662f0a54420a54450a6a54203e333030303834303042343030373530303c0a6d5420313234342e3236322036383430372e39333220302e36312d203020302030;
0x33303030383430303035303043343030373530303c0a6d5420313234342e32363220363830302e36373220302e36312d2030203020302e36310a665420312030;
0x3030363530303c0a6d5420313234342e3236322034393230322e32323320302e36312d2030203020302e36310a665420312030662f0a54420a54450a6a54203e;
0x20313234342e3236322035313936352e30363320302e36312d2030203020302e36310a665420312030662f0a54420a54450a6a54203e33303030383430304234;
0x392e39303420302e36312d2030203020302e36310a665420312030662f0a54420a54450a6a54203e33303030373530303135303038343030413530303c0a6d54;
0x20302e36312d2030203020302e36310a665420312030662f0a54420a54450a6a54203e3330303031353030323530303c0a6d5420313234342e32363220383835;
0x450a6a54203e3330303044313030413430303135303043343030453430304634303034343030373530303c0a6d5420313234342e32363220343433392e393334;
0x3834303037323030364230303c0a6d5420313234342e3236322036313230392e39303520302e36312d2030203020302e36310a665420312030662f0a54420a54;
0x2e32363220383636362e38363520302e36312d2030203020302e36310a665420312030662f0a54420a54450a6a54203e33303030463030303535303034343030;
0x312d2030203020302e36310a665420312030662f0a54420a54450a6a54203e3330303034303030353530303434303038343030373430303c0a6d542031323434;
0x36310a665420312030662f0a54420a54450a6a54203e333030304135303032353030423230303c0a6d5420313234342e32363220363930352e31323620302e36;
0x6a54203e3330303035353030383430303834303038353030343530303c0a6d5420313234342e3236322033373136342e36363620302e36312d2030203020302e;
0x34303039353030383430303c0a6d5420313234342e3638322035353039352e353720302e36312d2030203020302e36310a665420312030662f0a54420a54450a;
0x312d2030203020302e36310a665420312030662f0a54420a54450a6a54203e333030304134303031353030433430304234303037353030433530303535303038;
0x3020302e36310a665420312030662f0a54420a54450a6a54203e3330303036353030433430303c0a6d5420313234342e36383220313432382e38363120302e36;
0xa665420312030662f0a54420a54450a6a54203e3031303032353030373530303c0a6d5420313234342e3638322032353937342e38383120302e36312d203020;
0x54450a6a54203e33303030343030304335303034343030373430303c0a6d5420313234342e36383220373330312e32313220302e36312d2030203020302e3631;
0x303734303031353030343230303c0a6d5420313234342e3638322032363132382e34353220302e36312d2030203020302e36310a665420312030662f0a54420a;
0x30433530303c0a6d5420313234342e363832203833392e32393220302e36312d2030203020302e36310a665420312030662f0a54420a54450a6a54203e333030;
0x2030203020302e36310a665420312030662f0a54420a54450a6a54203e3330303043353030343430303734303035353030383430303735303036353030383430;
0xa54450a6a54203e333030303635303041343030313530304334303042343030373530303c0a6d5420313234342e36383220363538352e39373320302e36312d;
0x30303135303038343030413530303c0a6d5420313234342e3638322037393135392e35333420302e36312d2030203020302e36310a665420312030662f0a5442;
0x303c0a6d5420313234342e36383220393936312e32383420302e36312d2030203020302e36310a665420312030662f0a54420a54450a6a54203e333030303735;
0x313234342e3638322035373337392e38303520302e36312d2030203020302e36310a665420312030662f0a54420a54450a6a54203e3330303031353030323530;
0x2e35343520302e36312d2030203020302e36310a665420312030662f0a54420a54450a6a54203e33303030373530303635303038353030443430303c0a6d5420;
0x302e36312d2030203020302e36310a665420312030662f0a54420a54450a6a54203e3330303036353030343430303c0a6d5420313234342e3638322032333430;
0x30662f0a54420a54450a6a54203e333030303131303046343030343430303835303036353030383530303c0a6d5420313234342e363832203835302e30373520;
0x2f0a54420a54450a6a54203e33303030433230303c0a6d5420313234342e3638322035323538382e34323620302e36312d2030203020302e36310a6654203120;
0x3030373430303135303032353030413530303c0a6d5420313234342e3638322035313837342e36333620302e36312d2030203020302e36310a66542031203066;
0x20313234342e3638322034303634392e32303720302e36312d2030203020302e36310a665420312030662f0a54420a54450a6a54203e33303030353530303834;
0x2e3031332035353039352e353720302e36312d2030203020302e36310a665420312030662f0a54420a54450a6a54203e3330303039343030433430303c0a6d54;
0x20302e36312d2030203020302e36310a665420312030662f0a54420a54450a6a54203e33303030383430303935303037423030433230303c0a6d542031323434;
0x36310a665420312030662f0a54420a54450a6a54203e33303030313530303834303038343030353430303c0a6d5420313234342e30313320383633372e313131;
0x373430303834303041343030313530303434303042343030363430303c0a6d5420313234342e3031332034323035372e38353120302e36312d2030203020302e;
0x30303c0a6d5420313234342e3031332037333831382e34333220302e36312d2030203020302e36310a665420312030662f0a54420a54450a6a54203e33303030;
0x20313234342e3031332038333333342e36353220302e36312d2030203020302e36310a665420312030662f0a54420a54450a6a54203e33303030313530304334;
0x35323032372e39383220302e36312d2030203020302e36310a665420312030662f0a54420a54450a6a54203e333030303834303042343030373530303c0a6d54;
0x36310a665420312030662f0a54420a54450a6a54203e333030303232303037353030423430304134303043343030313530303c0a6d5420313234342e30313320;
0x2f0a54420a54450a6a54203e333030303735303038343030463230303c0a6d5420313234342e3031332034373739332e36343320302e36312d2030203020302e;
0x450a6a54203e3330303038343030303530303c0a6d5420313234342e3031332034303835342e38373320302e36312d2030203020302e36310a66542031203066;
0x4334303042343030373530303c0a6d5420313234342e3031332038373631392e30313420302e36312d2030203020302e36310a665420312030662f0a54420a54;
0x3031332038303230362e33363420302e36312d2030203020302e36310a665420312030662f0a54420a54450a6a54203e33303030443130304534303031353030;
0x31303520302e36312d2030203020302e36310a665420312030662f0a54420a54450a6a54203e333030303635303034343030413530303c0a6d5420313234342e;
0x313520302e36312d2030203020302e36310a665420312030662f0a54420a54450a6a54203e33303030433230303c0a6d5420313234342e30313320373735382e;
0x30203020302e36310a665420312030662f0a54420a54450a6a54203e333030303834303042343030373530303c0a6d5420313234342e30313320353530362e33;
0x2030662f0a54420a54450a6a54203e33303030383430303035303034343030363530303c0a6d5420313234342e30313320343239382e36343520302e36312d20;
0x3e33303030313530303834303042343030413530303c0a6d5420313234342e3031332036373139342e37393520302e36312d2030203020302e36310a66542031;
0x303030433230303c0a6d5420313234342e3031332035373133372e37343620302e36312d2030203020302e36310a665420312030662f0a54420a54450a6a5420;
0x30413430303c0a6d5420313234342e3031332035353937342e39353620302e36312d2030203020302e36310a665420312030662f0a54420a54450a6a54203e33;
0x313234342e3031332036333732372e32393620302e36312d2030203020302e36310a665420312030662f0a54420a54450a6a54203e3330303037353030323530;
0x3433332035353039352e353720302e36312d2030203020302e36310a665420312030662f0a54420a54450a6a54203e3330303033353030383530303c0a6d5420;
0x302e36312d2030203020302e36310a665420312030662f0a54420a54450a6a54203e33303030363530304334303042343030373530303c0a6d5420313234342e;
0x6a54203e3330303032323030413430303135303043343030313530303535303032353030303530303c0a6d5420313234342e3433332037353737342e30313120;
0x203e33303030433230303c0a6d5420313234342e3433332039333739342e31393120302e36312d2030203020302e36310a665420312030662f0a54420a54450a;
0x46343030343430303c0a6d5420313234342e3433332034383730392e31303220302e36312d2030203020302e36310a665420312030662f0a54420a54450a6a54;
0x32393333382e31363220302e36312d2030203020302e36310a665420312030662f0a54420a54450a6a54203e3330303037353030363530303235303030353030;
0x3020302e36310a665420312030662f0a54420a54450a6a54203e3330303045343030313530304334303042343030373530303c0a6d5420313234342e34333320;
0x302e36310a665420312030662f0a54420a54450a6a54203e33303030433230303c0a6d5420313234342e3433332036323139372e37303320302e36312d203020;
0x30662f0a54420a54450a6a54203e333030303135303034343030363430303c0a6d5420313234342e3433332032373130322e38313320302e36312d2030203020;
0x30353030383430303035303038343030353530303c0a6d5420313234342e3433332032363533362e32353320302e36312d2030203020302e36310a6654203120;
0x3433332036393234332e32343420302e36312d2030203020302e36310a665420312030662f0a54420a54450a6a54203e33303030353530303834303035343030;
0x36310a665420312030662f0a54420a54450a6a54203e33303030413430303135303043343030463430303834303038343030393430303c0a6d5420313234342e;
0xa665420312030662f0a54420a54450a6a54203e33303030343430303c0a6d5420313234342e3433332038343234352e32303520302e36312d2030203020302e;
0x3030303834303046343030373530303735303043343030463430303c0a6d5420313234342e34333320393833302e38313520302e36312d2030203020302e3631;
0x30373430303c0a6d5420313234342e3433332035313735342e39353520302e36312d2030203020302e36310a665420312030662f0a54420a54450a6a54203e33;
0x20302e36310a665420312030662f0a54420a54450a6a54203e333030303131303037353030313530303834303035353030383430303934303039343030433430;
0x312030662f0a54420a54450a6a54203e333030303735303038353030353230303c0a6d5420313234342e34333320373138372e38333620302e36312d20302030;
0x2f0a54420a54450a6a54203e3330303039343030433430303c0a6d5420313234342e343333203436382e31373620302e36312d2030203020302e36310a665420;
0x203e333030303035303037423030433230303c0a6d5420313234342e3433332035383333362e37383620302e36312d2030203020302e36310a66542031203066;
0x3032353030313530303c0a6d5420313234342e3835332035353039352e353720302e36312d2030203020302e36310a665420312030662f0a54420a54450a6a54;
0xa6d5420313234342e3835332032333335362e39303120302e36312d2030203020302e36310a665420312030662f0a54420a54450a6a54203e33303030373530;
0x35332038373037372e33343120302e36312d2030203020302e36310a665420312030662f0a54420a54450a6a54203e333030303834303042343030373530303c;
0x2030203020302e36310a665420312030662f0a54420a54450a6a54203e3330303046303030383430303035303034343030363530303c0a6d5420313234342e38;
0x665420312030662f0a54420a54450a6a54203e333030303834303042343030373530303c0a6d5420313234342e3835332038363638322e30303220302e36312d;
0xa6a54203e33303030373530304235303038343030313530303c0a6d5420313234342e3835332034313430342e34333220302e36312d2030203020302e36310a;
0x34303038353030343530303c0a6d5420313234342e3835332036333039392e37373220302e36312d2030203020302e36310a665420312030662f0a54420a5445;
0x2e34353320302e36312d2030203020302e36310a665420312030662f0a54420a54450a6a54203e33303030313530303235303043343030373530303635303038;
0x312d2030203020302e36310a665420312030662f0a54420a54450a6a54203e333030304630303036353030433430303c0a6d5420313234342e38353320353739;
0x310a665420312030662f0a54420a54450a6a54203e333030303235303042343030413330303c0a6d5420313234342e3835332034383130372e30383320302e36;
0x312030662f0a54420a54450a6a54203e3330303031353030433430303c0a6d5420313234342e38353320353131332e34323420302e36312d2030203020302e36;
0x450a6a54203e333030303834303042343030373530303c0a6d5420313234342e3835332038303735372e36343420302e36312d2030203020302e36310a665420;
0x3535303032353030413530303c0a6d5420313234342e3835332034353437382e30383420302e36312d2030203020302e36310a665420312030662f0a54420a54;
0x313234342e38353320393838372e32333520302e36312d2030203020302e36310a665420312030662f0a54420a54450a6a54203e333030303734303046343030;
0x38353320313933302e36363520302e36312d2030203020302e36310a665420312030662f0a54420a54450a6a54203e3330303030353030343430303c0a6d5420;
0x3930312e37383520302e36312d2030203020302e36310a665420312030662f0a54420a54450a6a54203e3330303032323030433230303c0a6d5420313234342e;
0x2e36312d2030203020302e36310a665420312030662f0a54420a54450a6a54203e333030304630303042343030343230303c0a6d5420313234342e3835332037;
0x2f0a54420a54450a6a54203e333030303633303037423030373330303432303042323030373330303c0a6d5420313234342e38353320323134312e3132362030;
0x54203e333030303834303042343030373530303c0a6d5420313234342e38353320353636372e36383620302e36312d2030203020302e36310a66542031203066;
0x303035353030413430303c0a6d5420313234342e3238332035353039352e353720302e36312d2030203020302e36310a665420312030662f0a54420a54450a6a;
0x2e323833203537323639352e33323120302e36312d2030203020302e36310a665420312030662f0a54420a54450a6a54203e3330303037353030343430303834;
0x665420312030662f0a54420a54450a6a54203e3330303037423030343030303834303046343030443530304435303038353030333530303c0a6d542031323434;
0x420a54450a6a54203e333030303734303031353030343230303c0a6d5420313234342e3238332035353832382e31393120302e36312d2030203020302e36310a;
0x3030303834303042343030363530303c0a6d5420313234342e3238332031323032342e38323220302e36312d2030203020302e36310a665420312030662f0a54;
0x38343030353430303c0a6d5420313234342e3238332039302e32363220302e36312d2030203020302e36310a665420312030662f0a54420a54450a6a54203e33;
0x3238332032303134352e37313320302e36312d2030203020302e36310a665420312030662f0a54420a54450a6a54203e33303030313530303434303041343030;
0x5420312030662f0a54420a54450a6a54203e3330303041343030313530304334303045343030313530304334303042343030373530303c0a6d5420313234342e;
0x6a54203e33303030353530303834303039353030323530303c0a6d5420313234342e3238332032333839382e37383320302e36312d2030203020302e36310a66;
0x34303046343030343430303c0a6d5420313234342e32383320353732392e38323420302e36312d2030203020302e36310a665420312030662f0a54420a54450a;
0x30303c0a6d5420313234342e32383320333237392e32353420302e36312d2030203020302e36310a665420312030662f0a54420a54450a6a54203e3330303046;
0x34342e32383320363937352e34383420302e36312d2030203020302e36310a665420312030662f0a54420a54450a6a54203e3330303038343030423430303735;
0x310a665420312030662f0a54420a54450a6a54203e3330303031353030383430303535303037343030463430304334303042343030363430303c0a6d54203132;
0xa54420a54450a6a54203e333030303834303042343030363530303c0a6d5420313234342e3238332035393537342e34353520302e36312d2030203020302e36;
0x30413530303834303031353030453430303c0a6d5420313234342e3238332035373534312e38383520302e36312d2030203020302e36310a665420312030662f;
0x373530303c0a6d5420313234342e32383320323133382e35333620302e36312d2030203020302e36310a665420312030662f0a54420a54450a6a54203e333030;
0x3238332035383237362e33373620302e36312d2030203020302e36310a665420312030662f0a54420a54450a6a54203e33303030373530303434303042343030;
0x302e36312d2030203020302e36310a665420312030662f0a54420a54450a6a54203e33303030383430303535303038343030413530303c0a6d5420313234342e;
0x2030203020302e36310a665420312030662f0a54420a54450a6a54203e3330303039343030323530303c0a6d5420313234342e3630342035353039352e353720;
0xa665420312030662f0a54420a54450a6a54203e333030303834303042343030373530303c0a6d5420313234342e3630342038303537342e373920302e36312d;
0x450a6a54203e33303030383430303035303034343030363530303c0a6d5420313234342e3630342036353539312e30333120302e36312d2030203020302e3631;
0x3834303041343030343430303c0a6d5420313234342e3630342033353832322e30383120302e36312d2030203020302e36310a665420312030662f0a54420a54;
0x30303c0a6d5420313234342e3630342038383539342e36313220302e36312d2030203020302e36310a665420312030662f0a54420a54450a6a54203e33303030;
0x20313234342e3630342037313939302e31343220302e36312d2030203020302e36310a665420312030662f0a54420a54450a6a54203e33303030363530303434;
0x302e36310a665420312030662f0a54420a54450a6a54203e3330303046303030393430304634303038343030363530303535303038343030423430303c0a6d54;
0x5420312030662f0a54420a54450a6a54203e3330303032353030373530303c0a6d5420313234342e3630342038303836342e37303320302e36312d2030203020;
0xa54450a6a54203e333030303834303038343030363530303c0a6d5420313234342e3630342033323339392e39323320302e36312d2030203020302e36310a66;
0x54203e3330303039343030433430303c0a6d5420313234342e36303420333937342e34363320302e36312d2030203020302e36310a665420312030662f0a5442;
0x3042343030363530303c0a6d5420313234342e3630342038303032302e31383320302e36312d2030203020302e36310a665420312030662f0a54420a54450a6a;
0xa6d5420313234342e3630342034303330382e35313420302e36312d2030203020302e36310a665420312030662f0a54420a54450a6a54203e33303030383430;
0x2e35363420302e36312d2030203020302e36310a665420312030662f0a54420a54450a6a54203e3330303037343030463430303835303032353030363430303c;
0x3020302e36310a665420312030662f0a54420a54450a6a54203e33303030383430303935303034343030423430303c0a6d5420313234342e3630342038333935;
0x2f0a54420a54450a6a54203e33303030313530303834303038343030353430303c0a6d5420313234342e3630342037323431332e31313520302e36312d203020;
0x343030313530303434303042343030363430303c0a6d5420313234342e36303420333136372e37353520302e36312d2030203020302e36310a66542031203066;
0x313234342e363034203336322e33333620302e36312d2030203020302e36310a665420312030662f0a54420a54450a6a54203e33303030373430303834303041;
0x363532372e31363620302e36312d2030203020302e36310a665420312030662f0a54420a54450a6a54203e333030303535303032353030393430303c0a6d5420;
0x2e36312d2030203020302e36310a665420312030662f0a54420a54450a6a54203e333030304335303031353030343430303c0a6d5420313234342e3630342035;
0x203020302e36310a665420312030662f0a54420a54450a6a54203e3330303039343030323530303c0a6d5420313234342e3630342036333230362e3739362030;
0x30662f0a54420a54450a6a54203e31313030303530303834303042343030373530303c0a6d5420313234342e3033342035353039352e353720302e36312d2030;
0x310a665420312030662f0a54420a54450a6a54203e3c0a6d5420313234342e3435342035353039352e353720302e36312d2030203020302e36310a6654203120;
0xa54450a6a54203e33303030303530303742303043323030364230303c0a6d5420313234342e3837342035353039352e353720302e36312d2030203020302e36;
0x30303535303038353030363530303c0a6d5420313234342e3837342037333430332e33313120302e36312d2030203020302e36310a665420312030662f0a5442;
0x3c0a6d5420313234342e3837342036303034342e35353120302e36312d2030203020302e36310a665420312030662f0a54420a54450a6a54203e333030303834;
0x3837342033393736302e38383120302e36312d2030203020302e36310a665420312030662f0a54420a54450a6a54203e33303030303530303742303043323030;
0x31323220302e36312d2030203020302e36310a665420312030662f0a54420a54450a6a54203e333030303735303032353030313530303c0a6d5420313234342e;
0x310a665420312030662f0a54420a54450a6a54203e3330303037423030463030303434303037343030343230303c0a6d5420313234342e38373420333830352e;
0xa54420a54450a6a54203e333030303834303042343030363530303c0a6d5420313234342e3837342037363332382e39363220302e36312d2030203020302e36;
0x30373430304334303034343030363530303c0a6d5420313234342e3837342033323138332e35303320302e36312d2030203020302e36310a665420312030662f;
0x3c0a6d5420313234342e38373420363634342e30353320302e36312d2030203020302e36310a665420312030662f0a54420a54450a6a54203e33303030463030;
0x38373936372e34383320302e36312d2030203020302e36310a665420312030662f0a54420a54450a6a54203e3330303035353030323530303934303036423030;
0x302e36312d2030203020302e36310a665420312030662f0a54420a54450a6a54203e333030303535303038343030423430303c0a6d5420313234342e38373420;
0xa665420312030662f0a54420a54450a6a54203e33303030353530304334303034343030423430303c0a6d5420313234342e3837342032353936352e38313420;
0x54450a6a54203e33303030363530303834303032353030413430303c0a6d5420313234342e38373420353537372e36353420302e36312d2030203020302e3631;
0x3e3330303031353030433430303c0a6d5420313234342e3837342036373733312e32303520302e36312d2030203020302e36310a665420312030662f0a54420a;
0x353030363530303c0a6d5420313234342e3837342034393036392e33323520302e36312d2030203020302e36310a665420312030662f0a54420a54450a6a5420;
0x34342e3837342034323231362e38363520302e36312d2030203020302e36310a665420312030662f0a54420a54450a6a54203e33303030423430303634303038;
0x313620302e36312d2030203020302e36310a665420312030662f0a54420a54450a6a54203e33303030413430303135303032353030463430303c0a6d54203132;
0x54203e333030304630303036353030373530303834303046343030413430303135303043343030353530303c0a6d5420313234342e3837342034373038332e30;
0x3031353030343430303c0a6d5420313234342e3837342037363232392e32383620302e36312d2030203020302e36310a665420312030662f0a54420a54450a6a;
0x3c0a6d5420313234342e3230352035353039352e353720302e36312d2030203020302e36310a665420312030662f0a54420a54450a6a54203e33303030373430;
0x33343039382e31323120302e36312d2030203020302e36310a665420312030662f0a54420a54450a6a54203e3330303038343030313530304334303030353030;
0x5420312030662f0a54420a54450a6a54203e33303030373530303742303031353030363530303834303032353030373430303c0a6d5420313234342e32303520;
0x2f0a54420a54450a6a54203e3330303032353030413430303c0a6d5420313234342e3230352038363939372e37383120302e36312d2030203020302e36310a66;
0x450a6a54203e3330303031353030433430303c0a6d5420313234342e3230352034323932302e34313220302e36312d2030203020302e36310a66542031203066;
0x3135303043343030353530303c0a6d5420313234342e3230352031343939382e34333220302e36312d2030203020302e36310a665420312030662f0a54420a54;
0x342e31303320302e36312d2030203020302e36310a665420312030662f0a54420a54450a6a54203e333030303635303037353030383430304634303041343030;
0x20302e36312d2030203020302e36310a665420312030662f0a54420a54450a6a54203e3330303037353030343430303c0a6d5420313234342e32303520343230;
0x310a665420312030662f0a54420a54450a6a54203e33303030453130304634303046343030343430303c0a6d5420313234342e3230352037373436372e333233;
0xa54420a54450a6a54203e333030303734303031353030343430303c0a6d5420313234342e3230352035393433312e34353320302e36312d2030203020302e36;
0x3e333030303035303037423030433230303c0a6d5420313234342e3230352035373032352e30393320302e36312d2030203020302e36310a665420312030662f;
0x353030363530303c0a6d5420313234342e3230352032363539312e32323420302e36312d2030203020302e36310a665420312030662f0a54420a54450a6a5420;
0x3234342e32303520333837332e33363420302e36312d2030203020302e36310a665420312030662f0a54420a54450a6a54203e33303030383430303535303038;
0x34342e32303520333138332e34373420302e36312d2030203020302e36310a665420312030662f0a54420a54450a6a54203e33303030433230303c0a6d542031;
0x2e36312d2030203020302e36310a665420312030662f0a54420a54450a6a54203e3330303037353030374230303135303034343030363430303c0a6d54203132;
0x30203020302e36310a665420312030662f0a54420a54450a6a54203e3330303038343030353430303c0a6d5420313234342e32303520313736372e3032352030;
0x450a6a54203e333030304630303046343030383430303534303034343030303330303c0a6d5420313234342e3230352033333135302e37343520302e36312d20;
0x303535303032353030393430303c0a6d5420313234342e32303520323637342e36303620302e36312d2030203020302e36310a665420312030662f0a54420a54;
0x3230303c0a6d5420313234342e3230352034343036372e34333620302e36312d2030203020302e36310a665420312030662f0a54420a54450a6a54203e333030;
0x30303c0a6d5420313234342e32303520343336372e35343620302e36312d2030203020302e36310a665420312030662f0a54420a54450a6a54203e3330303043;
0x303520393832332e34393620302e36312d2030203020302e36310a665420312030662f0a54420a54450a6a54203e333030304135303032353030313530304534;
0x353720302e36312d2030203020302e36310a665420312030662f0a54420a54450a6a54203e333030304634303046343030343430303c0a6d5420313234342e32;
0x665420312030662f0a54420a54450a6a54203e3330303036353030373530303535303032353030363530303c0a6d542034313234342e3632352035353039352e;
0xa54420a54450a6a54203e3330303039343030323530303c0a6d542034313234342e363235203536393139302e31323120302e36312d2030203020302e36310a;
0x313530304334303042343030373530303c0a6d542034313234342e3632352034373230372e32343120302e36312d2030203020302e36310a665420312030662f;
0x3632352037373936342e33303220302e36312d2030203020302e36310a665420312030662f0a54420a54450a6a54203e33303030463030303635303041343030;
0x333220302e36312d2030203020302e36310a665420312030662f0a54420a54450a6a54203e333030303734303031353030343430303c0a6d542034313234342e;
0x36310a665420312030662f0a54420a54450a6a54203e33303030463030303834303042343030363530303c0a6d542034313234342e3632352034323036372e39;
0x2f0a54420a54450a6a54203e333030303430303042343030323530303c0a6d542034313234342e36323520343535332e39373220302e36312d2030203020302e;
0x3e333030303834303042343030363530303c0a6d542034313234342e3632352036303838382e31313320302e36312d2030203020302e36310a66542031203066;
0x3030453430303c0a6d542034313234342e3632352038323739332e36343320302e36312d2030203020302e36310a665420312030662f0a54420a54450a6a5420;
0x352037333330322e33303420302e36312d2030203020302e36310a665420312030662f0a54420a54450a6a54203e333030303635303041353030323530303135;
0x312d2030203020302e36310a665420312030662f0a54420a54450a6a54203e33303030423430303634303038353030363530303c0a6d542034313234342e3632;
0x30203020302e36310a665420312030662f0a54420a54450a6a54203e33303030343430303c0a6d542034313234342e3632352034333630382e36343420302e36;
0x662f0a54420a54450a6a54203e33303030433530303535303038343030393530303c0a6d542034313234342e3632352033393939372e32363420302e36312d20;
0x343030373530303735303043343030463430303c0a6d542034313234342e36323520323834332e34303520302e36312d2030203020302e36310a665420312030;
0x34342e3632352033373737362e32353520302e36312d2030203020302e36310a665420312030662f0a54420a54450a6a54203e33303030343030303834303046;
0xa665420312030662f0a54420a54450a6a54203e3330303046303030363530303834303037343030433430303635303038343030353230303c0a6d5420343132;
0x203e3330303036333030374230303832303042323030363330303c0a6d542034313234342e36323520313039382e35323620302e36312d2030203020302e3631;
0x343030363530303c0a6d542034313234342e3632352034303831362e39373620302e36312d2030203020302e36310a665420312030662f0a54420a54450a6a54;
0x3234342e3035352035353039352e353720302e36312d2030203020302e36310a665420312030662f0a54420a54450a6a54203e33303030463030303834303042;
0x38342e32313120302e36312d2030203020302e36310a665420312030662f0a54420a54450a6a54203e333030303734303031353030343430303c0a6d54203431;
0x2030203020302e36310a665420312030662f0a54420a54450a6a54203e333030303035303037423030433230303c0a6d542034313234342e3035352036313232;
0x36310a665420312030662f0a54420a54450a6a54203e3330303046303030433230303c0a6d542034313234342e3035352033393236362e34343120302e36312d;
0x54450a6a54203e30313030303130303734303031353030343430303c0a6d542034313234342e3035352032373735322e31363120302e36312d2030203020302e;
0x3330303042343030323530303c0a6d542034313234342e3035352032333031362e34303220302e36312d2030203020302e36310a665420312030662f0a54420a;
0x30373430303c0a6d542034313234342e3035352031313033332e31333220302e36312d2030203020302e36310a665420312030662f0a54420a54450a6a54203e;
0x2036393838352e39373220302e36312d2030203020302e36310a665420312030662f0a54420a54450a6a54203e33303030463030303535303034343030383430;
0x302e36312d2030203020302e36310a665420312030662f0a54420a54450a6a54203e333030304135303032353030423430303c0a6d542034313234342e303535;
0x54203e3330303041343030313530304334303046343030443530304435303038353030333530303c0a6d542034313234342e3035352038363439332e39313320;
0x37353030433430303c0a6d542034313234342e3035352033303636342e32393320302e36312d2030203020302e36310a665420312030662f0a54420a54450a6a;
0x303c0a6d542034313234342e3035352038383437392e39303420302e36312d2030203020302e36310a665420312030662f0a54420a54450a6a54203e33303030;
0x342e30353520333036342e35333420302e36312d2030203020302e36310a665420312030662f0a54420a54450a6a54203e333030304634303046343030343430;
0x2e31363420302e36312d2030203020302e36310a665420312030662f0a54420a54450a6a54203e333030303430303036353030433430303c0a6d542034313234;
0x20302e36310a665420312030662f0a54420a54450a6a54203e33303030463430304634303037423030433230303c0a6d542034313234342e3035352037353434;
0x30662f0a54420a54450a6a54203e333030304335303035353030373530303c0a6d542034313234342e3035352032313133392e36383420302e36312d20302030;
0xa54450a6a54203e3330303039343030433430303c0a6d542034313234342e30353520353134302e36313520302e36312d2030203020302e36310a6654203120;
0x450a6a54203e33303030433230303c0a6d542034313234342e30353520373930392e32333520302e36312d2030203020302e36310a665420312030662f0a5442;
0x3235303031353030453430303c0a6d542034313234342e30353520363831342e34343520302e36312d2030203020302e36310a665420312030662f0a54420a54;
0x6d542034313234342e30353520393938342e33393520302e36312d2030203020302e36310a665420312030662f0a54420a54450a6a54203e3330303041353030;
0x352034333537392e38313620302e36312d2030203020302e36310a665420312030662f0a54420a54450a6a54203e333030304634303046343030343430303c0a;
0x20302e36312d2030203020302e36310a665420312030662f0a54420a54450a6a54203e333030303834303042343030373530303c0a6d542034313234342e3035;
0x2f0a54420a54450a6a54203e333030303635303041343030313530304334303042343030373530303c0a6d542034313234342e3035352035323332302e323536;
0x420a54450a6a54203e33303030433230303c0a6d542034313234342e3035352034353530332e38303720302e36312d2030203020302e36310a66542031203066;
0x3430303834303036353030383530303c0a6d542034313234342e3437352035353039352e353720302e36312d2030203020302e36310a665420312030662f0a54;
0x3c0a6d542034313234342e3437352038313733392e32323120302e36312d2030203020302e36310a665420312030662f0a54420a54450a6a54203e3330303037;
0x3234342e3437352035373936382e37343120302e36312d2030203020302e36310a665420312030662f0a54420a54450a6a54203e333030303235303037353030;
0x2e36312d2030203020302e36310a665420312030662f0a54420a54450a6a54203e3330303031313030413530303235303031353030453430303c0a6d54203431;
0x302e36310a665420312030662f0a54420a54450a6a54203e333030303735303038343030463230303c0a6d542034313234342e343735203730312e3430322030;
0x5420312030662f0a54420a54450a6a54203e3330303038343030303530303c0a6d542034313234342e34373520333830302e38333220302e36312d2030203020;
0x54203e33303030443130303834303038343030363530303c0a6d542034313234342e3437352034303830332e32373220302e36312d2030203020302e36310a66;
0x32353030393430303c0a6d542034313234342e3437352036313239352e34313320302e36312d2030203020302e36310a665420312030662f0a54420a54450a6a;
0x3234342e3437352034383230362e35353320302e36312d2030203020302e36310a665420312030662f0a54420a54450a6a54203e333030303535303038353030;
0x2e36312d2030203020302e36310a665420312030662f0a54420a54450a6a54203e3330303036353030383430303035303043343030373530303c0a6d54203431;
0x5420312030662f0a54420a54450a6a54203e33303030383430303935303043343030393430303c0a6d542034313234342e3437352038323735392e3830342030;
0xa54420a54450a6a54203e3330303036353030433430303c0a6d542034313234342e3437352036393731322e37343420302e36312d2030203020302e36310a66;
0x463430303834303041353030373530303c0a6d542034313234342e3437352036323936382e38363420302e36312d2030203020302e36310a665420312030662f;
0x2e34373520323638372e35333520302e36312d2030203020302e36310a665420312030662f0a54420a54450a6a54203e33303030463030303834303039353030;
0x34373520302e36312d2030203020302e36310a665420312030662f0a54420a54450a6a54203e333030303734303031353030343430303c0a6d54203431323434;
0x302e36310a665420312030662f0a54420a54450a6a54203e33303030353530303835303032353030393430303c0a6d542034313234342e34373520383735372e;
0x450a6a54203e3330303036353030383430303035303043343030373530303c0a6d542034313234342e34373520353836372e35313620302e36312d2030203020;
0x4235303043343030363530303c0a6d542034313234342e34373520393232312e39363620302e36312d2030203020302e36310a665420312030662f0a54420a54;
0x3430303c0a6d542034313234342e343735203334322e30303720302e36312d2030203020302e36310a665420312030662f0a54420a54450a6a54203e33303030;
0x542034313234342e3839352035353039352e353720302e36312d2030203020302e36310a665420312030662f0a54420a54450a6a54203e333030303635303043;
0x310a665420312030662f0a54420a54450a6a54203e333030304630303031353030383430303834303037353030353530304334303042343030373530303c0a6d;
0x54420a54450a6a54203e333030303734303031353030343430303c0a6d542034313234342e3839352037303739372e30353120302e36312d2030203020302e36;
0x3530303835303032353030393430303c0a6d542034313234342e3839352036313038342e37383120302e36312d2030203020302e36310a665420312030662f0a;
0x3c0a6d542034313234342e3839352032333230322e36323220302e36312d2030203020302e36310a665420312030662f0a54420a54450a6a54203e3330303035;
0x322e37373220302e36312d2030203020302e36310a665420312030662f0a54420a54450a6a54203e333030303635303038343030303530304334303037353030;
0x310a665420312030662f0a54420a54450a6a54203e3330303031353030383430303935303038343030363530303c0a6d542034313234342e3839352032323836;
0x54420a54450a6a54203e303130303031303036353030433430303c0a6d542034313234342e3839352034353238342e31333320302e36312d2030203020302e36;
0x54203e3330303042343030323530303c0a6d542034313234342e3839352034323630332e37353320302e36312d2030203020302e36310a665420312030662f0a;
0x38343030373430303c0a6d542034313234342e3839352034343731382e33383320302e36312d2030203020302e36310a665420312030662f0a54420a54450a6a;
0x3839352033383539312e33333420302e36312d2030203020302e36310a665420312030662f0a54420a54450a6a54203e33303030343030303535303034343030;
0x3520313639342e34343420302e36312d2030203020302e36310a665420312030662f0a54420a54450a6a54203e33303030433230303c0a6d542034313234342e;
0x203020302e36310a665420312030662f0a54420a54450a6a54203e3330303046343030463430303434303042343030363530303c0a6d542034313234342e3839;
0xa54450a6a54203e3330303035353030383430303935303038343030313530303c0a6d542034313234342e3839352038343934322e38383420302e36312d2030;
0x3030303735303038343030413430303c0a6d542034313234342e383935203630372e30343520302e36312d2030203020302e36310a665420312030662f0a5442;
0x3030373530303c0a6d542034313234342e383935203136352e33373520302e36312d2030203020302e36310a665420312030662f0a54420a54450a6a54203e33;
0x303c0a6d542034313234342e383935203530322e36393520302e36312d2030203020302e36310a665420312030662f0a54420a54450a6a54203e333030303235;
0x353620302e36312d2030203020302e36310a665420312030662f0a54420a54450a6a54203e333030304335303037353030313530303834303041353030373530;
0x312d2030203020302e36310a665420312030662f0a54420a54450a6a54203e3330303037353030343430303c0a6d542034313234342e38393520353237382e37;
0x312030662f0a54420a54450a6a54203e33303030373530303434303042343030373530303c0a6d542034313234342e3839352037313233352e30383620302e36;
0x303034303030383430303735303034343030353530303c0a6d542034313234342e3232362035353039352e353720302e36312d2030203020302e36310a665420;
0x3230303c0a6d542034313234342e3232362033323234312e33323120302e36312d2030203020302e36310a665420312030662f0a54420a54450a6a54203e3330;
0x312d2030203020302e36310a665420312030662f0a54420a54450a6a54203e333030304630303035353030383430303935303038343030413530303235303042;
0x310a665420312030662f0a54420a54450a6a54203e333030303834303042343030373530303c0a6d542034313234342e32323620343630352e37303220302e36;
0x30303335303043343030373530304634303038353030303330303c0a6d542034313234342e3232362031383130342e32343220302e36312d2030203020302e36;
0x2d2030203020302e36310a665420312030662f0a54420a54450a6a54203e33303030313530303235303043343030373530303434303036343030433430304634;
0xa54420a54450a6a54203e3330303038343030463430303534303034343030373330303c0a6d542034313234342e3232362038363534342e38353320302e3631;
0x363530303834303032353030373430303c0a6d542034313234342e3232362032373630312e31313420302e36312d2030203020302e36310a665420312030662f;
0x3232362032333936332e39373420302e36312d2030203020302e36310a665420312030662f0a54420a54450a6a54203e33303030373530303742303031353030;
0x20312030662f0a54420a54450a6a54203e3330303044313030433530303934303043343030313530304134303043343030363530303c0a6d542034313234342e;
0x30303036353030374230303735303038343030463430303c0a6d542034313234342e32323620363232302e36343520302e36312d2030203020302e36310a6654;
0x30373530303c0a6d542034313234342e32323620363434362e38383520302e36312d2030203020302e36310a665420312030662f0a54420a54450a6a54203e33;
0x313234342e3232362034353230362e39313620302e36312d2030203020302e36310a665420312030662f0a54420a54450a6a54203e3330303043353030353530;
0x30662f0a54420a54450a6a54203e33303030313130304335303042343030333530303434303035353030413430303235303038343030413230303c0a6d542034;
0x32353030373430303135303032353030463230303c0a6d542034313234342e3634362035353039352e353720302e36312d2030203020302e36310a6654203120;
0x542034313234342e3634362035393831352e30343120302e36312d2030203020302e36310a665420312030662f0a54420a54450a6a54203e3330303031353030;
0x2e3634362032393839322e39353120302e36312d2030203020302e36310a665420312030662f0a54420a54450a6a54203e3330303036353030433430303c0a6d;
0x31393120302e36312d2030203020302e36310a665420312030662f0a54420a54450a6a54203e333030303834303042343030373530303c0a6d54203431323434;
0xa54420a54450a6a54203e33303030463430303434303037353030433430303335303034343030363430303c0a6d542034313234342e3634362035343535352e;
0x6a54203e3330303039343030323530303c0a6d542034313234342e3634362033373038322e31353220302e36312d2030203020302e36310a665420312030662f;
0x3034343030333330303c0a6d542034313234342e3634362032333130372e32373220302e36312d2030203020302e36310a665420312030662f0a54420a54450a;
0x2038343839352e32323320302e36312d2030203020302e36310a665420312030662f0a54420a54450a6a54203e33303030463030303635303043343030353530;
0x302e36312d2030203020302e36310a665420312030662f0a54420a54450a6a54203e333030303734303031353030343430303c0a6d542034313234342e363436;
0x2030662f0a54420a54450a6a54203e3330303036353030433430303535303034343030333330303c0a6d542034313234342e3634362036373839362e38353320;
0xa54450a6a54203e3330303036353030433430303c0a6d542034313234342e3634362038393930352e33303420302e36312d2030203020302e36310a66542031;
0x303834303042343030373530303c0a6d542034313234342e3634362035393938322e32323420302e36312d2030203020302e36310a665420312030662f0a5442;
0x30303c0a6d542034313234342e3634362038343634352e34353420302e36312d2030203020302e36310a665420312030662f0a54420a54450a6a54203e333030;
0x302e36312d2030203020302e36310a665420312030662f0a54420a54450a6a54203e333030304634303034343030373530304334303033353030343430303634;
0x30203020302e36310a665420312030662f0a54420a54450a6a54203e3330303039343030323530303c0a6d542034313234342e36343620373137322e34313520;
0x54420a54450a6a54203e3330303046303030383430303035303032353030353330303c0a6d542034313234342e36343620333239362e35333520302e36312d20;
0x333030303734303031353030343430303c0a6d542034313234342e36343620393231312e33393520302e36312d2030203020302e36310a665420312030662f0a;
0x3030353330303c0a6d542034313234342e36343620323331322e39323620302e36312d2030203020302e36310a665420312030662f0a54420a54450a6a54203e;
0x343620383830302e38383620302e36312d2030203020302e36310a665420312030662f0a54420a54450a6a54203e303130303031303038343030303530303235;
0x3720302e36312d2030203020302e36310a665420312030662f0a54420a54450a6a54203e333030304630303032353030313530303c0a6d542034313234342e36;
0x30662f0a54420a54450a6a54203e333030303633303037423030373330303432303042323030373330303c0a6d542034313234342e3037362035353039352e35;
0x54203e333030304634303046343030343430303c0a6d542034313234342e3037362036383339382e38333120302e36312d2030203020302e36310a6654203120;
0x35353030413530303c0a6d542034313234342e3037362035383632312e33363120302e36312d2030203020302e36310a665420312030662f0a54420a54450a6a;
0x36343030352e33323220302e36312d2030203020302e36310a665420312030662f0a54420a54450a6a54203e3330303046303030413430303135303032353030;
0x2e36312d2030203020302e36310a665420312030662f0a54420a54450a6a54203e333030303035303037423030433230303c0a6d542034313234342e30373620;
0x203e3330303034303030313530304334303034343030373530303535303038343030363430303c0a6d542034313234342e3037362036373832342e3435322030;
0x33303030433230303c0a6d542034313234342e30373620333336322e32323320302e36312d2030203020302e36310a665420312030662f0a54420a54450a6a54;
0x30303530303c0a6d542034313234342e3037362034373931352e32333320302e36312d2030203020302e36310a665420312030662f0a54420a54450a6a54203e;
0x2e3037362037333339332e38373320302e36312d2030203020302e36310a665420312030662f0a54420a54450a6a54203e333030303735303036353030383530;
0x302e36312d2030203020302e36310a665420312030662f0a54420a54450a6a54203e33303030383430303935303034343030423430303c0a6d54203431323434;
0x665420312030662f0a54420a54450a6a54203e33303030313530303834303038343030353430303c0a6d542034313234342e3037362037383838312e33323420;
0x3834303041343030313530303434303042343030363430303c0a6d542034313234342e3037362034393031372e38363420302e36312d2030203020302e36310a;
0x542034313234342e3037362036363738322e33343520302e36312d2030203020302e36310a665420312030662f0a54420a54450a6a54203e3330303037343030;
0x3620333532382e30373520302e36312d2030203020302e36310a665420312030662f0a54420a54450a6a54203e333030303535303032353030393430303c0a6d;
0x2e36310a665420312030662f0a54420a54450a6a54203e333030303430303046343030383430303534303034343030303330303c0a6d542034313234342e3037;
0x420a54450a6a54203e33303030463430304634303037423030433230303c0a6d542034313234342e30373620373133382e30333620302e36312d203020302030;
0x3030304335303035353030373530303c0a6d542034313234342e30373620373436302e35353620302e36312d2030203020302e36310a665420312030662f0a54;
0x343430303c0a6d542034313234342e3037362037363232392e32383620302e36312d2030203020302e36310a665420312030662f0a54420a54450a6a54203e33;
0x313234342e3439362035353039352e353720302e36312d2030203020302e36310a665420312030662f0a54420a54450a6a54203e333030303734303031353030;
0x3533322e31313120302e36312d2030203020302e36310a665420312030662f0a54420a54450a6a54203e333030304335303034343030363530303c0a6d542034;
0x203020302e36310a665420312030662f0a54420a54450a6a54203e33303030413530303235303042323030344230303c0a6d542034313234342e343936203930;
0x2f0a54420a54450a6a54203e33303030423430303735303032353030373430303c0a6d542034313234342e3439362038353536342e32363120302e36312d2030;
0x3e333030303834303042343030373530303c0a6d542034313234342e3439362032313036382e36303220302e36312d2030203020302e36310a66542031203066;
0x343030463430303c0a6d542034313234342e34393620313335312e31343220302e36312d2030203020302e36310a665420312030662f0a54420a54450a6a5420;
0x203020302e36310a665420312030662f0a54420a54450a6a54203e33303030374230303442303030313030303130303834303046343030373530303735303043;
0x312030662f0a54420a54450a6a54203e333030303734303031353030343430303c0a6d542034313234342e3439362033373633382e39303320302e36312d2030;
0xa6a54203e333030303834303042343030363530303c0a6d542034313234342e3439362035343337392e37343320302e36312d2030203020302e36310a665420;
0x303035353030363430303c0a6d542034313234342e3439362032393832332e34383320302e36312d2030203020302e36310a665420312030662f0a54420a5445;
0x3620322e34353420302e36312d2030203020302e36310a665420312030662f0a54420a54450a6a54203e33303030373430303834303036353030363530303235;
0x20302e36312d2030203020302e36310a665420312030662f0a54420a54450a6a54203e333030303535303038343030423430303c0a6d542034313234342e3439;
0x312030662f0a54420a54450a6a54203e3330303036353030373430303135303034343030423430303c0a6d542034313234342e3439362037363739372e383834;
0x420a54450a6a54203e3330303031353030323530303c0a6d542034313234342e3439362035393031342e35343520302e36312d2030203020302e36310a665420;
0x3030303535303038343030423430303c0a6d542034313234342e34393620383537332e33373520302e36312d2030203020302e36310a665420312030662f0a54;
0x463430303c0a6d542034313234342e3439362035343337392e37303620302e36312d2030203020302e36310a665420312030662f0a54420a54450a6a54203e33;
0x3234342e3439362036383431342e30343620302e36312d2030203020302e36310a665420312030662f0a54420a54450a6a54203e333030303335303034343030;
0x2034363039352e36363620302e36312d2030203020302e36310a665420312030662f0a54420a54450a6a54203e3330303036353030343430303c0a6d54203431;
0x34383620302e36312d2030203020302e36310a665420312030662f0a54420a54450a6a54203e3330303039343030433430303c0a6d542034313234342e343936;
0x30203020302e36310a665420312030662f0a54420a54450a6a54203e333030303834303042343030363530303c0a6d542034313234342e34393620393330372e;
0x30662f0a54420a54450a6a54203e33303030383430303535303038343030413530303c0a6d542034313234342e3831372035353039352e353720302e36312d20;
0x353030433430304335303034343030363530303c0a6d542034313234342e3831372032343938312e30323120302e36312d2030203020302e36310a6654203120;
0x542034313234342e38313720333838372e37373120302e36312d2030203020302e36310a665420312030662f0a54420a54450a6a54203e333030304134303031;
0x20302e36310a665420312030662f0a54420a54450a6a54203e3330303046303030363530303135303032353030363530303635303038343030463430303c0a6d;
0x30662f0a54420a54450a6a54203e333030303734303031353030343430303c0a6d542034313234342e3831372031313834332e37343220302e36312d20302030;
0x3031353030343430304134303038343030353430303c0a6d542034313234342e383137203739362e32383220302e36312d2030203020302e36310a6654203120;
0x30303c0a6d542034313234342e3831372037383534302e38333320302e36312d2030203020302e36310a665420312030662f0a54420a54450a6a54203e333030;
0x34313234342e3831372038363535332e39353320302e36312d2030203020302e36310a665420312030662f0a54420a54450a6a54203e33303030323530303735;
0x312d2030203020302e36310a665420312030662f0a54420a54450a6a54203e333030303735303034343030383430303335303038343030353530303c0a6d5420;
0x36310a665420312030662f0a54420a54450a6a54203e333030304630303037353030433430303c0a6d542034313234342e383137203330312e37313420302e36;
0x662f0a54420a54450a6a54203e333030303735303038353030353430303c0a6d542034313234342e383137203535312e38333420302e36312d2030203020302e;
0x203e333030303535303038343030423430303c0a6d542034313234342e3831372033363237392e39363420302e36312d2030203020302e36310a665420312030;
0x353030393530303c0a6d542034313234342e3831372034343238372e31303520302e36312d2030203020302e36310a665420312030662f0a54420a54450a6a54;
0x38313720353337332e39343520302e36312d2030203020302e36310a665420312030662f0a54420a54450a6a54203e3330303038343030363430304334303032;
0x310a665420312030662f0a54420a54450a6a54203e33303030373430303834303037343030313530303835303032353030363530303c0a6d542034313234342e;
0x3030303834303036353030353530303434303032353030423430303c0a6d542034313234342e38313720333338312e33323620302e36312d2030203020302e36;
0x30343430303c0a6d542034313234342e38313720383232392e32383620302e36312d2030203020302e36310a665420312030662f0a54420a54450a6a54203e33;
0x34313234342e3234372035353039352e353720302e36312d2030203020302e36310a665420312030662f0a54420a54450a6a54203e3330303037343030313530;
0x2e36310a665420312030662f0a54420a54450a6a54203e3330303046303030383430304134303031353030343430303535303037353030363530303c0a6d5420;
0x2f0a54420a54450a6a54203e333030303734303031353030343430303c0a6d542034313234342e3234372033323539382e36343120302e36312d203020302030;
0x3e333030303834303042343030373530303c0a6d542034313234342e3234372033373238302e32383120302e36312d2030203020302e36310a66542031203066;
0x3030413530303c0a6d542034313234342e3234372038343632342e33313220302e36312d2030203020302e36310a665420312030662f0a54420a54450a6a5420;
0x372033373735342e36363220302e36312d2030203020302e36310a665420312030662f0a54420a54450a6a54203e333030303635303037343030353530303235;
0x20302e36312d2030203020302e36310a665420312030662f0a54420a54450a6a54203e333030303734303043343030373430303c0a6d542034313234342e3234;
0x302e36310a665420312030662f0a54420a54450a6a54203e333030303735303032353030313530303c0a6d542034313234342e3234372038343130332e363932;
0x420a54450a6a54203e33303030383430303035303032353030363430303c0a6d542034313234342e3234372035353039352e37323320302e36312d2030203020;
0x3030303834303042343030373530303c0a6d542034313234342e32343720313239362e36373320302e36312d2030203020302e36310a665420312030662f0a54;
0x363530303c0a6d542034313234342e3234372036383533302e38303420302e36312d2030203020302e36310a665420312030662f0a54420a54450a6a54203e33;
0x2e32343720313239362e36353420302e36312d2030203020302e36310a665420312030662f0a54420a54450a6a54203e33303030383430303035303034343030;
0x3831392e39373420302e36312d2030203020302e36310a665420312030662f0a54420a54450a6a54203e3330303036353030343430303c0a6d54203431323434;
0x203020302e36310a665420312030662f0a54420a54450a6a54203e33303030433530303834303042343030373530303c0a6d542034313234342e323437203736;
0x662f0a54420a54450a6a54203e33303030373430303834303036353030383530303c0a6d542034313234342e32343720323133372e30323520302e36312d2030;
0x54450a6a54203e3330303032353030373530303c0a6d542034313234342e32343720373339322e34363520302e36312d2030203020302e36310a665420312030;
0x4431303032353030373430303c0a6d542034313234342e3234372034313234342e35383520302e36312d2030203020302e36310a665420312030662f0a54420a;
0x6d542034313234342e3636372035353039352e353720302e36312d2030203020302e36310a665420312030662f0a54420a54450a6a54203e3031303030313030;
0x333030303c0a6d542034313234342e3039372035353039352e353720302e36312d2030203020302e36310a665420312030662f0a54420a54450a6a54203e3c0a;
0x3039372034323032302e31303120302e36312d2030203020302e36310a665420312030662f0a54420a54450a6a54203e33303030333030303330303033303030;
0x2e36312d2030203020302e36310a665420312030662f0a54420a54450a6a54203e33303030413530303235303042323030364230303c0a6d542034313234342e;
0x5420312030662f0a54420a54450a6a54203e33303030423430303735303032353030373430303c0a6d542034313234342e3039372036333839302e3634312030;
0x54450a6a54203e333030303834303042343030373530303c0a6d542034313234342e3039372037363334352e37383120302e36312d2030203020302e36310a66;
0x3735303043343030463430303c0a6d542034313234342e3039372032343738382e38313220302e36312d2030203020302e36310a665420312030662f0a54420a;
0x3039372032393939362e39353220302e36312d2030203020302e36310a665420312030662f0a54420a54450a6a54203e33303030383430304634303037353030;
0x20312030662f0a54420a54450a6a54203e3834303046343030433430303734303032353030363430303235303035353030363430303c0a6d542034313234342e;
0x30303033303030333030303330303033303030333030303c0a6d542034313234342e3431382035353039352e353720302e36312d2030203020302e36310a6654;
0x433230303c0a6d542034313234342e3431382038313630312e36303120302e36312d2030203020302e36310a665420312030662f0a54420a54450a6a54203e33;
0x3120302e36312d2030203020302e36310a665420312030662f0a54420a54450a6a54203e33303030383430303935303032353030353530303335303030353030;
0x20302e36310a665420312030662f0a54420a54450a6a54203e333030303635303043343030423430303c0a6d542034313234342e3431382033373233332e3737;
0x3030413430303135303043343030313530304334303042343030363530303c0a6d542034313234342e3431382035353034332e35303220302e36312d20302030;
0x3530303c0a6d542034313234342e3431382037313133322e38363220302e36312d2030203020302e36310a665420312030662f0a54420a54450a6a54203e3330;
0x3833382035353039352e353720302e36312d2030203020302e36310a665420312030662f0a54420a54450a6a54203e4630303046343030433430303434303037;
0x2030203020302e36310a665420312030662f0a54420a54450a6a54203e3330303033303030333030303330303033303030333030303c0a6d542034313234342e;
0x5420312030662f0a54420a54450a6a54203e333030303734303031353030343230303c0a6d542034313234342e3833382038313630312e36303120302e36312d;
0x6a54203e33303030353530303835303032353030333530303c0a6d542034313234342e38333820333433342e32343120302e36312d2030203020302e36310a66;
0x303042343030373530303c0a6d542034313234342e38333820333438312e34383120302e36312d2030203020302e36310a665420312030662f0a54420a54450a;
0xa6d542034313234342e3833382035303832352e35313220302e36312d2030203020302e36310a665420312030662f0a54420a54450a6a54203e333030303834;
0x20302e36312d2030203020302e36310a665420312030662f0a54420a54450a6a54203e333030303635303035353030383430303735303034343030413530303c;
0x30203020302e36310a665420312030662f0a54420a54450a6a54203e3330303039343030323530303c0a6d542034313234342e3833382036383533352e343732;
0x20312030662f0a54420a54450a6a54203e333030303834303042343030373530303c0a6d542034313234342e3833382037363334302e35393220302e36312d20;
0x450a6a54203e383430304634303043343030313330303c0a6d542034313234342e3833382032343738332e36323320302e36312d2030203020302e36310a6654;
0x3330303033303030333030303c0a6d542034313234342e3236382035353039352e353720302e36312d2030203020302e36310a665420312030662f0a54420a54;
0x3234342e3236382038313630312e36303120302e36312d2030203020302e36310a665420312030662f0a54420a54450a6a54203e333030303330303033303030;
0x2038343632392e33333120302e36312d2030203020302e36310a665420312030662f0a54420a54450a6a54203e3330303031353030323330303c0a6d54203431;
0x3020302e36310a665420312030662f0a54420a54450a6a54203e3330303043353030353530303834303039353030383430303c0a6d542034313234342e323638;
0x54203e333030303135303038343030373430304634303032353030413430303c0a6d542034313234342e3236382035353531322e34383120302e36312d203020;
0x36343030363530303c0a6d542034313234342e3236382033373233382e33343220302e36312d2030203020302e36310a665420312030662f0a54420a54450a6a;
0x2e3638382035353039352e353720302e36312d2030203020302e36310a665420312030662f0a54420a54450a6a54203e34303030383430304634303034343030;
0x2034313234342e3031392035353039352e353720302e36312d2030203020302e36310a665420312030662f0a54420a54450a6a54203e3c0a6d54203431323434;
0x302e31303120302e36312d2030203020302e36310a665420312030662f0a54420a54450a6a54203e33303030333030303330303033303030333030303c0a6d54;
0x20302e36310a665420312030662f0a54420a54450a6a54203e33303030413530303235303042323030364230303c0a6d542034313234342e3031392034323032;
0x3030383530303934303035353030383430303834303042343030363430303c0a6d542034313234342e3031392036333839302e36343120302e36312d20302030;
0x342e3031392033323032352e30333220302e36312d2030203020302e36310a665420312030662f0a54420a54450a6a54203e3330303043353030463430304634;
0x353039352e35353220302e36312d2030203020302e36310a665420312030662f0a54420a54450a6a54203e3330303038343030423430303c0a6d542034313234;
0x302e36310a665420312030662f0a54420a54450a6a54203e3330303036353030303530303834303038343030363530303c0a6d542034313234342e3031392035;
0x5420312030662f0a54420a54450a6a54203e3330303032353030373530303c0a6d542034313234342e30313920383132362e32313320302e36312d2030203020;
0x54203e46303030313530304334303035353030413430303c0a6d542034313234342e3031392033323037372e33333320302e36312d2030203020302e36310a66;
0x3033303030333030303c0a6d542034313234342e3433392035353039352e353720302e36312d2030203020302e36310a665420312030662f0a54420a54450a6a;
0x2e3433392038313630312e36303120302e36312d2030203020302e36310a665420312030662f0a54420a54450a6a54203e333030303330303033303030333030;
0x36343120302e36312d2030203020302e36310a665420312030662f0a54420a54450a6a54203e333030304135303032353030423230303c0a6d54203431323434;
0x2030662f0a54420a54450a6a54203e333030304335303046343030373530303434303038343030313530303c0a6d542034313234342e3433392036333839302e;
0x34343030383430303535303033353030363530303c0a6d542034313234342e3433392036383036312e31303220302e36312d2030203020302e36310a66542031;
0x6d542034313234342e34333920383132312e31363220302e36312d2030203020302e36310a665420312030662f0a54420a54450a6a54203e3330303037343030;
0x333920363932312e39383220302e36312d2030203020302e36310a665420312030662f0a54420a54450a6a54203e333030303635303043343030423430303c0a;
0x30203020302e36310a665420312030662f0a54420a54450a6a54203e4630303036353030413530303434303046343030363430303c0a6d542034313234342e34;
0x54420a54450a6a54203e3330303033303030333030303330303033303030333030303c0a6d542034313234342e3835392035353039352e353720302e36312d20;
0x3030303734303031353030343230303c0a6d542034313234342e3835392038313630312e36303120302e36312d2030203020302e36310a665420312030662f0a;
0x30413530303c0a6d542034313234342e38353920333433342e32343120302e36312d2030203020302e36310a665420312030662f0a54420a54450a6a54203e33;
0x313220302e36312d2030203020302e36310a665420312030662f0a54420a54450a6a54203e333030303834303030353030323530303634303046343030383430;
0x30662f0a54420a54450a6a54203e333030303834303046343030373530303735303043343030463430303c0a6d542034313234342e3835392036383031392e38;
0x343030423430303635303043343030393430303c0a6d542034313234342e3835392036333332372e39353220302e36312d2030203020302e36310a6654203120;
0x2034313234342e3835392037363334352e31313320302e36312d2030203020302e36310a665420312030662f0a54420a54450a6a54203e333030303635303038;
0x313234342e3238392035353039352e353720302e36312d2030203020302e36310a665420312030662f0a54420a54450a6a54203e31353030433430303c0a6d54;
0x302e36312d2030203020302e36310a665420312030662f0a54420a54450a6a54203e3330303033303030333030303330303033303030333030303c0a6d542034;
0x665420312030662f0a54420a54450a6a54203e33303030423430303735303043343030413330303c0a6d542034313234342e3238392038313630312e36303120;
0x304335303046343030373530303135303038343030413430303c0a6d542034313234342e32383920383137382e37343120302e36312d2030203020302e36310a;
0x30303c0a6d542034313234342e3238392036383538322e33303220302e36312d2030203020302e36310a665420312030662f0a54420a54450a6a54203e333030;
0x302e36312d2030203020302e36310a665420312030662f0a54420a54450a6a54203e333030304134303031353030433430304634303043343030303530303635;
0x2030662f0a54420a54450a6a54203e3742303034303030363530304135303034343030443430303c0a6d542034313234342e3238392038343632392e35363220;
0xa665420312030662f0a54420a54450a6a54203e3c0a6d542034313234342e363030312035353039352e353720302e36312d2030203020302e36310a66542031;
0x450a6a54203e33303030303530303742303043323030364230303c0a6d5420313234342e303330312035353039352e353720302e36312d2030203020302e3631;
0x303038353030363530303c0a6d5420313234342e30333031203531323834372e33313120302e36312d2030203020302e36310a665420312030662f0a54420a54;
0x313234342e303330312034373732332e36353120302e36312d2030203020302e36310a665420312030662f0a54420a54450a6a54203e33303030383430303535;
0x20302e36312d2030203020302e36310a665420312030662f0a54420a54450a6a54203e3330303038343030363530303235303042343030373530303c0a6d5420;
0x302e36310a665420312030662f0a54420a54450a6a54203e333030303834303035353030343430303c0a6d5420313234342e303330312035363139332e383032;
0x30662f0a54420a54450a6a54203e333030303735303032353030313530303c0a6d5420313234342e3033303120333939322e32343220302e36312d2030203020;
0x54203e333030303834303042343030373530303c0a6d5420313234342e303330312033353338312e36373220302e36312d2030203020302e36310a6654203120;
0x43343030353530303c0a6d5420313234342e303330312034343232312e30313320302e36312d2030203020302e36310a665420312030662f0a54420a54450a6a;
0x3330312038323739332e35353320302e36312d2030203020302e36310a665420312030662f0a54420a54450a6a54203e33303030373530304234303041343030;
0x310a665420312030662f0a54420a54450a6a54203e33303030374230304630303036353030373430303535303032353030413530303c0a6d5420313234342e30;
0x450a6a54203e33303030373430304334303034343030363530303c0a6d5420313234342e303330312036353539312e31323420302e36312d2030203020302e36;
0x35303032353030333530303c0a6d5420313234342e303330312034383831362e31363420302e36312d2030203020302e36310a665420312030662f0a54420a54;
0x20313234342e303330312033343231362e35303520302e36312d2030203020302e36310a665420312030662f0a54420a54450a6a54203e333030303535303032;
0x36312d2030203020302e36310a665420312030662f0a54420a54450a6a54203e333030304630303038343030363430304334303046343030343230303c0a6d54;
0x2e36310a665420312030662f0a54420a54450a6a54203e333030303734303031353030343430303c0a6d5420313234342e30333031203635382e36353520302e;
0x662f0a54420a54450a6a54203e333030303535303038343030423430303c0a6d5420313234342e3033303120373833362e34393520302e36312d203020302030;
0x3030363530303834303043353030383430303c0a6d5420313234342e303330312036323238382e38323620302e36312d2030203020302e36310a665420312030;
0x3430303c0a6d5420313234342e303330312034353535302e34373620302e36312d2030203020302e36310a665420312030662f0a54420a54450a6a54203e3330;
0x352e353720302e36312d2030203020302e36310a665420312030662f0a54420a54450a6a54203e33303030373430303834303046343030463430304334303039;
0x20302e36310a665420312030662f0a54420a54450a6a54203e33303030423430303735303043343030413530303c0a6d5420313234342e343530312035353039;
0x450a6a54203e3330303036353030353530303434303038343030373530303c0a6d5420313234342e343530312038363132342e35313120302e36312d20302030;
0x34303041343030343430303c0a6d5420313234342e343530312033343334312e32363120302e36312d2030203020302e36310a665420312030662f0a54420a54;
0x34342e3435303120383038332e32313220302e36312d2030203020302e36310a665420312030662f0a54420a54450a6a54203e33303030313530304334303034;
0x2033323730342e36333220302e36312d2030203020302e36310a665420312030662f0a54420a54450a6a54203e3330303036353030343430303c0a6d54203132;
0x302e36312d2030203020302e36310a665420312030662f0a54420a54450a6a54203e333030303834303042343030363530303c0a6d5420313234342e34353031;
0x665420312030662f0a54420a54450a6a54203e33303030373530303135303038343030413530303c0a6d5420313234342e343530312034333331362e30373220;
0x420a54450a6a54203e333030304630303031353030323530303c0a6d5420313234342e3435303120393234382e35313320302e36312d2030203020302e36310a;
0x203e3330303043323030364230303c0a6d5420313234342e343530312032333434372e36343320302e36312d2030203020302e36310a665420312030662f0a54;
0x38353030303530303c0a6d5420313234342e3435303120383433342e32363320302e36312d2030203020302e36310a665420312030662f0a54420a54450a6a54;
0x34342e343530312036353635362e38303420302e36312d2030203020302e36310a665420312030662f0a54420a54450a6a54203e333030303735303036353030;
0x2036333234352e34333420302e36312d2030203020302e36310a665420312030662f0a54420a54450a6a54203e3330303038343030353430303c0a6d54203132;
0x3020302e36310a665420312030662f0a54420a54450a6a54203e3330303046343030383430303534303034343030303330303c0a6d5420313234342e34353031;
0x54450a6a54203e3330303035353030383430303735303039343030343430303c0a6d5420313234342e343530312035383238342e38383420302e36312d203020;
0x4634303046343030343430303c0a6d5420313234342e343530312036343130352e32333520302e36312d2030203020302e36310a665420312030662f0a54420a;
0x6d5420313234342e3435303120353836312e32363520302e36312d2030203020302e36310a665420312030662f0a54420a54450a6a54203e3330303046303030;
0x303120393535312e38393520302e36312d2030203020302e36310a665420312030662f0a54420a54450a6a54203e333030303734303031353030343430303c0a;
0x34343036372e38303620302e36312d2030203020302e36310a665420312030662f0a54420a54450a6a54203e33303030433230303c0a6d5420313234342e3435;
0x20302e36310a665420312030662f0a54420a54450a6a54203e3330303046343030463430303434303042343030363530303c0a6d5420313234342e3435303120;
0xa54420a54450a6a54203e33303030383430303935303034343030423430303c0a6d5420313234342e3435303120313831382e31353620302e36312d20302030;
0x6a54203e3330303032353030373530303c0a6d5420313234342e343530312033373136392e36393620302e36312d2030203020302e36310a665420312030662f;
0x6e6f432f20522030203120746e657261502f20656761502f20657079542f203c3c0a6a626f20302031310a6a626f646e650a6d6165727473646e650a0a54450a;
0x302032310a6a626f646e650a3e3e205d33383938382e3134382d2033363537322e353935203020305b20786f42616964654d2f205220302030312073746e6574;
0x665420312030662f0a54420a6d63203020302035372e302d203020302035372e300a6d61657274730a3e3e2032363439206874676e654c2f203c3c0a6a626f20;
0x662f0a54420a54450a6a54203e3330303032353030413430303c0a6d54203631313234342e34392035353039352e353720302e36312d2030203020302e36310a;
0x203e333030303734303031353030343430303c0a6d54203631313234342e34392035343035382e30303120302e36312d2030203020302e36310a665420312030;
0x343030463430303c0a6d54203631313234342e34392039353636322e36333120302e36312d2030203020302e36310a665420312030662f0a54420a54450a6a54;
0x3234342e34392039323438372e39363120302e36312d2030203020302e36310a665420312030662f0a54420a54450a6a54203e33303030383430303935303043;
0x20383438362e39383120302e36312d2030203020302e36310a665420312030662f0a54420a54450a6a54203e3330303031353030433430303c0a6d5420363131;
0x2d2030203020302e36310a665420312030662f0a54420a54450a6a54203e33303030373530303434303042343030373530303c0a6d54203631313234342e3439;
0x2030662f0a54420a54450a6a54203e33303030433530304534303032353030333530303c0a6d54203631313234342e34392036353139342e37323220302e3631;
0x46343030373530303735303043343030463430303c0a6d54203631313234342e34392034383538342e31373220302e36312d2030203020302e36310a66542031;
0x54203631313234342e34392038393632352e32313320302e36312d2030203020302e36310a665420312030662f0a54420a54450a6a54203e3330303038343030;
0x2e36312d2030203020302e36310a665420312030662f0a54420a54450a6a54203e333030304630303038343030363530303835303032353030423430303c0a6d;
0x2e36310a665420312030662f0a54420a54450a6a54203e333030303734303031353030343430303c0a6d54203631313234342e343920353737312e3137332030;
0xa54450a6a54203e33303030383430303935303034343030423430303c0a6d54203631313234342e34392033363339352e36303420302e36312d203020302030;
0x304235303038343030313530303c0a6d54203631313234342e34392032303636312e31353420302e36312d2030203020302e36310a665420312030662f0a5442;
0x6d54203631313234342e34392035313730322e32393420302e36312d2030203020302e36310a665420312030662f0a54420a54450a6a54203e33303030373530;
0x3234342e343920323438352e33313520302e36312d2030203020302e36310a665420312030662f0a54420a54450a6a54203e3330303032353030373530303c0a;
0x20353832382e38333520302e36312d2030203020302e36310a665420312030662f0a54420a54450a6a54203e3330303032353030313530303c0a6d5420363131;
0x2d2030203020302e36310a665420312030662f0a54420a54450a6a54203e33303030363530304335303032353030373530303c0a6d54203631313234342e3439;
0x2e36310a665420312030662f0a54420a54450a6a54203e3330303032353030373530303c0a6d54203631313234342e34392035323031302e38373520302e3631;
0x420a54450a6a54203e33303030433530303434303046343030333530303c0a6d54203631313234342e343920333738332e39393520302e36312d203020302030;
0x3430303735303043343030413530303c0a6d54203631313234342e343920393637352e38333620302e36312d2030203020302e36310a665420312030662f0a54;
0x54203631313234342e343920373232392e32383620302e36312d2030203020302e36310a665420312030662f0a54420a54450a6a54203e333030304630303042;
0x312035353039352e353720302e36312d2030203020302e36310a665420312030662f0a54420a54450a6a54203e333030303734303031353030343430303c0a6d;
0x302e36312d2030203020302e36310a665420312030662f0a54420a54450a6a54203e333030303430303042343030323530303c0a6d54203631313234342e3831;
0x5420312030662f0a54420a54450a6a54203e33303030353530303834303039353030383430303c0a6d54203631313234342e3831312035313339342e38303120;
0x54420a54450a6a54203e3330303032353030363530303c0a6d54203631313234342e3831312038333638372e30353120302e36312d2030203020302e36310a66;
0x30303135303034343030303530303c0a6d54203631313234342e3831312033323037342e35373120302e36312d2030203020302e36310a665420312030662f0a;
0x6d54203631313234342e3831312038303932302e37323220302e36312d2030203020302e36310a665420312030662f0a54420a54450a6a54203e333030304335;
0x2d2030203020302e36310a665420312030662f0a54420a54450a6a54203e33303030363530303135303032353030363530303635303038343030463430303c0a;
0x2e36310a665420312030662f0a54420a54450a6a54203e3330303032353030373530303c0a6d54203631313234342e38313120353431382e32393220302e3631;
0x3030303430303031353030353530303434303038343030463430303c0a6d54203631313234342e3831312035383533342e35313320302e36312d203020302030;
0x3330303c0a6d54203631313234342e3831312035323132322e39363320302e36312d2030203020302e36310a665420312030662f0a54420a54450a6a54203e33;
0x34342e3831312034383332362e32303420302e36312d2030203020302e36310a665420312030662f0a54420a54450a6a54203e33303030463030303235303031;
0x20302e36312d2030203020302e36310a665420312030662f0a54420a54450a6a54203e33303030383430303935303037423030433230303c0a6d542036313132;
0x665420312030662f0a54420a54450a6a54203e33303030383430303734303034343030303530303c0a6d54203631313234342e3831312037383939322e383334;
0xa54420a54450a6a54203e3330303033353030383530303c0a6d54203631313234342e3831312033333934322e30393420302e36312d2030203020302e36310a;
0x54203e3330303043353030303530303c0a6d54203631313234342e3831312034303530312e37313520302e36312d2030203020302e36310a665420312030662f;
0x343030303530303c0a6d54203631313234342e3831312037353831372e38343520302e36312d2030203020302e36310a665420312030662f0a54420a54450a6a;
0x3234342e38313120353530362e35393520302e36312d2030203020302e36310a665420312030662f0a54420a54450a6a54203e33303030373430303135303043;
0x36312d2030203020302e36310a665420312030662f0a54420a54450a6a54203e3330303037353030383530303235303035343030343430303c0a6d5420363131;
0x310a665420312030662f0a54420a54450a6a54203e333030304531303037353030433430303c0a6d54203631313234342e38313120343832332e38343620302e;
0x662f0a54420a54450a6a54203e3330303039343030433430303c0a6d54203631313234342e3831312034363639392e30373620302e36312d2030203020302e36;
0x203e333030303035303037423030433230303c0a6d54203631313234342e38313120363333362e37383620302e36312d2030203020302e36310a665420312030;
0x34343030303330303c0a6d542031313234342e3234312035353039352e353720302e36312d2030203020302e36310a665420312030662f0a54420a54450a6a54;
0x39333838372e35333120302e36312d2030203020302e36310a665420312030662f0a54420a54450a6a54203e3330303046303030463430303834303035343030;
0x2030203020302e36310a665420312030662f0a54420a54450a6a54203e33303030463430304634303037423030433230303c0a6d542031313234342e32343120;
0x30662f0a54420a54450a6a54203e33303030433530303434303037353030363530303c0a6d542031313234342e3234312031393034352e31363120302e36312d;
0x303030313530304135303032353030373430303c0a6d542031313234342e3234312033393038342e32303220302e36312d2030203020302e36310a6654203120;
0x423430303c0a6d542031313234342e3234312032303031372e32353220302e36312d2030203020302e36310a665420312030662f0a54420a54450a6a54203e33;
0x35353738352e32303320302e36312d2030203020302e36310a665420312030662f0a54420a54450a6a54203e3330303034303030383430303535303038343030;
0x20302e36310a665420312030662f0a54420a54450a6a54203e3330303046343030463430303742303037353030433230303c0a6d542031313234342e32343120;
0x5420312030662f0a54420a54450a6a54203e3330303038343030353430303c0a6d542031313234342e3234312033353331362e34333320302e36312d20302030;
0xa54420a54450a6a54203e3330303032353030313530303c0a6d542031313234342e3234312035373037362e31363320302e36312d2030203020302e36310a66;
0x333030303834303036353030383530303c0a6d542031313234342e3234312035363735362e38383320302e36312d2030203020302e36310a665420312030662f;
0x3030373530303c0a6d542031313234342e32343120323533302e34323420302e36312d2030203020302e36310a665420312030662f0a54420a54450a6a54203e;
0x312036363337332e38363420302e36312d2030203020302e36310a665420312030662f0a54420a54450a6a54203e333030303535303043343030383430304234;
0x665420312030662f0a54420a54450a6a54203e33303030413430303135303043343030373530303735303038353030333530303c0a6d542031313234342e3234;
0x3e3330303035353030433430303834303042343030373530303c0a6d542031313234342e32343120383631302e33333520302e36312d2030203020302e36310a;
0x343030423430303c0a6d542031313234342e32343120323535332e37373520302e36312d2030203020302e36310a665420312030662f0a54420a54450a6a5420;
0x34312036363339362e32333620302e36312d2030203020302e36310a665420312030662f0a54420a54450a6a54203e3330303036353030373430303434303038;
0x36312d2030203020302e36310a665420312030662f0a54420a54450a6a54203e33303030313530304135303032353030373430303c0a6d542031313234342e32;
0x36310a665420312030662f0a54420a54450a6a54203e333030303734303031353030343430303c0a6d542031313234342e32343120373232392e32383620302e;
0x333030304134303031353030433430304335303034343030363530303c0a6d542031313234342e3636312035353039352e353720302e36312d2030203020302e;
0x30344230303c0a6d542031313234342e3636312031393234382e34333120302e36312d2030203020302e36310a665420312030662f0a54420a54450a6a54203e;
0x3120343332342e36393120302e36312d2030203020302e36310a665420312030662f0a54420a54450a6a54203e33303030383430303035303032353030363230;
0x2e33323220302e36312d2030203020302e36310a665420312030662f0a54420a54450a6a54203e3330303033353030383530303c0a6d542031313234342e3636;
0x312030662f0a54420a54450a6a54203e333030304630303031353030433430303434303041343030343430303c0a6d542031313234342e363631203630313236;
0x3034303030353530303434303038343030373430303c0a6d542031313234342e3636312035333935392e39373220302e36312d2030203020302e36310a665420;
0x6d542031313234342e3636312038303634392e37333320302e36312d2030203020302e36310a665420312030662f0a54420a54450a6a54203e33303030354230;
0x2031313234342e36363120363536352e39343320302e36312d2030203020302e36310a665420312030662f0a54420a54450a6a54203e33303030433230303c0a;
0x3320302e36312d2030203020302e36310a665420312030662f0a54420a54450a6a54203e3330303046343030463430303434303042343030363530303c0a6d54;
0x310a665420312030662f0a54420a54450a6a54203e33303030433530304634303031353030323530303c0a6d542031313234342e3636312038323833362e3339;
0x54450a6a54203e33303030453430303235303032353030463430303c0a6d542031313234342e36363120383238332e34333420302e36312d2030203020302e36;
0x3330303033353030383530303c0a6d542031313234342e3636312036363237352e34373420302e36312d2030203020302e36310a665420312030662f0a54420a;
0x30343430303c0a6d542031313234342e3636312032333037372e31303520302e36312d2030203020302e36310a665420312030662f0a54420a54450a6a54203e;
0x31313234342e36363120373237372e38333520302e36312d2030203020302e36310a665420312030662f0a54420a54450a6a54203e3330303037343030313530;
0x393238322e33373520302e36312d2030203020302e36310a665420312030662f0a54420a54450a6a54203e333030304335303034343030363530303c0a6d5420;
0x2030203020302e36310a665420312030662f0a54420a54450a6a54203e33303030323530304234303041333030344230303c0a6d542031313234342e36363120;
0x2e36310a665420312030662f0a54420a54450a6a54203e3330303030353030343430303c0a6d542031313234342e36363120383232322e34323620302e36312d;
0x310a665420312030662f0a54420a54450a6a54203e33303030433230303c0a6d542031313234342e36363120323431352e36353620302e36312d203020302030;
0x54203e3330303032323030313530303834303042343030373530303c0a6d542031313234342e36363120383333312e38363620302e36312d2030203020302e36;
0x3038343030373330303c0a6d542031313234342e3039312035353039352e353720302e36312d2030203020302e36310a665420312030662f0a54420a54450a6a;
0x313234342e3039312037313234382e30313120302e36312d2030203020302e36310a665420312030662f0a54420a54450a6a54203e3330303046343030463430;
0x312036363531302e33343120302e36312d2030203020302e36310a665420312030662f0a54420a54450a6a54203e3330303038343030303530303c0a6d542031;
0x312d2030203020302e36310a665420312030662f0a54420a54450a6a54203e33303030373530303434303042343030373530303c0a6d542031313234342e3039;
0xa54450a6a54203e333030304630303037353030363530303535303043343030393430303c0a6d542031313234342e3039312035363135322e32383120302e36;
0x303734303031353030343430303c0a6d542031313234342e3039312032303734332e35323220302e36312d2030203020302e36310a665420312030662f0a5442;
0x30303c0a6d542031313234342e3039312038333239312e32363220302e36312d2030203020302e36310a665420312030662f0a54420a54450a6a54203e333030;
0x3032342e30313320302e36312d2030203020302e36310a665420312030662f0a54420a54450a6a54203e33303030463030303135303038343030423430303735;
0x20302e36312d2030203020302e36310a665420312030662f0a54420a54450a6a54203e3330303039343030433430303c0a6d542031313234342e303931203635;
0x2e36312d2030203020302e36310a665420312030662f0a54420a54450a6a54203e33303030433230303c0a6d542031313234342e30393120353234322e373233;
0x5420312030662f0a54420a54450a6a54203e33303030383430304534303043343030463430303c0a6d542031313234342e3039312035303530372e3833332030;
0x30303041343030313530304334303038343030353430303c0a6d542031313234342e3039312035383834342e33373320302e36312d2030203020302e36310a66;
0x373530303c0a6d542031313234342e3039312034383433392e34323420302e36312d2030203020302e36310a665420312030662f0a54420a54450a6a54203e33;
0x3039312034383037312e34363420302e36312d2030203020302e36310a665420312030662f0a54420a54450a6a54203e33303030373530303434303042343030;
0x310a665420312030662f0a54420a54450a6a54203e33303030463030303135303032353030363530303535303038343030333530303c0a6d542031313234342e;
0x450a6a54203e33303030463430304634303037423030433230303c0a6d542031313234342e3039312036333434382e30333520302e36312d2030203020302e36;
0x3035303032353030363430303c0a6d542031313234342e30393120353338322e36353520302e36312d2030203020302e36310a665420312030662f0a54420a54;
0x542031313234342e3039312037393234302e37303620302e36312d2030203020302e36310a665420312030662f0a54420a54450a6a54203e3330303038343030;
0x2034323437342e39333620302e36312d2030203020302e36310a665420312030662f0a54420a54450a6a54203e333030304431303033353030383530303c0a6d;
0x36353620302e36312d2030203020302e36310a665420312030662f0a54420a54450a6a54203e3330303039343030433430303c0a6d542031313234342e303931;
0x302e36310a665420312030662f0a54420a54450a6a54203e33303030463030303735303032353030313530303c0a6d542031313234342e30393120323639322e;
0x54420a54450a6a54203e33303030463430304634303037423030433230303c0a6d542031313234342e30393120313932332e34393620302e36312d2030203020;
0x433530303434303037353030363530303c0a6d542031313234342e3431322035353039352e353720302e36312d2030203020302e36310a665420312030662f0a;
0x30303c0a6d542031313234342e34313220313036382e38313120302e36312d2030203020302e36310a665420312030662f0a54420a54450a6a54203e33303030;
0x313220373831342e31373120302e36312d2030203020302e36310a665420312030662f0a54420a54450a6a54203e333030303135303041353030323530303734;
0x36312d2030203020302e36310a665420312030662f0a54420a54450a6a54203e33303030383430303535303038343030423430303c0a6d542031313234342e34;
0x20312030662f0a54420a54450a6a54203e33303030463430304634303043343030373530303c0a6d542031313234342e3431322039363131322e37313220302e;
0x54450a6a54203e333030303035303037423030433230303c0a6d542031313234342e34313220383730322e36343220302e36312d2030203020302e36310a6654;
0x3035303032353030363530303c0a6d542031313234342e3431322037313538392e30383220302e36312d2030203020302e36310a665420312030662f0a54420a;
0x342e33373320302e36312d2030203020302e36310a665420312030662f0a54420a54450a6a54203e333030304335303037343030323530303534303038343030;
0x5420312030662f0a54420a54450a6a54203e303130303031303035423030383430303635303046343030383430303c0a6d542031313234342e34313220393639;
0x54203e33303030463030303735303038353030353430303c0a6d542031313234342e3431322036333230312e30333420302e36312d2030203020302e36310a66;
0x42343030323530303c0a6d542031313234342e3431322032333534312e31373420302e36312d2030203020302e36310a665420312030662f0a54420a54450a6a;
0x303c0a6d542031313234342e3431322033373136342e30303520302e36312d2030203020302e36310a665420312030662f0a54420a54450a6a54203e33303030;
0x353520302e36312d2030203020302e36310a665420312030662f0a54420a54450a6a54203e333030303742303034303030353530303434303038343030373430;
0x5420312030662f0a54420a54450a6a54203e3330303037343030383430304334303035353030363430303c0a6d542031313234342e3431322036323133372e37;
0x4630303038343030363430304334303046343030343230303c0a6d542031313234342e34313220333833392e36303620302e36312d2030203020302e36310a66;
0x30303c0a6d542031313234342e34313220353738382e39353620302e36312d2030203020302e36310a665420312030662f0a54420a54450a6a54203e33303030;
0x322034353931322e33303720302e36312d2030203020302e36310a665420312030662f0a54420a54450a6a54203e333030304234303037353030433430304135;
0x35353039352e353720302e36312d2030203020302e36310a665420312030662f0a54420a54450a6a54203e33303030343430303c0a6d542031313234342e3431;
0x310a665420312030662f0a54420a54450a6a54203e333030303135303038343030373430303734303038353030363530303c0a6d542031313234342e38333220;
0x203e3330303037353030363530303535303038353030353430303c0a6d542031313234342e3833322032303333322e31343120302e36312d2030203020302e36;
0x343030323530303c0a6d542031313234342e3833322031343638352e39383120302e36312d2030203020302e36310a665420312030662f0a54420a54450a6a54;
0x303c0a6d542031313234342e38333220333737382e31313220302e36312d2030203020302e36310a665420312030662f0a54420a54450a6a54203e3330303039;
0x363220302e36312d2030203020302e36310a665420312030662f0a54420a54450a6a54203e333030304630303036353030353530303434303038343030373530;
0x312d2030203020302e36310a665420312030662f0a54420a54450a6a54203e3330303043323030364230303c0a6d542031313234342e38333220323836362e34;
0x302e36310a665420312030662f0a54420a54450a6a54203e3330303032353030373430303c0a6d542031313234342e3833322032393134332e31383220302e36;
0x420a54450a6a54203e33303030423430303635303043343030413530303c0a6d542031313234342e3833322035323635312e38303320302e36312d2030203020;
0x30303834303042343030373530303c0a6d542031313234342e3833322038303333302e31353320302e36312d2030203020302e36310a665420312030662f0a54;
0xa6d542031313234342e3833322036363832362e33393320302e36312d2030203020302e36310a665420312030662f0a54420a54450a6a54203e333030304335;
0x2e31363420302e36312d2030203020302e36310a665420312030662f0a54420a54450a6a54203e3330303037323030463230303833303032333030413330303c;
0x30203020302e36310a665420312030662f0a54420a54450a6a54203e333030303735303038353030333530303c0a6d542031313234342e383332203630373538;
0x54420a54450a6a54203e3330303035353030433430303834303042343030373530303c0a6d542031313234342e38333220343639322e35393420302e36312d20;
0x3430303434303038343030423430303c0a6d542031313234342e3833322036363634342e39333520302e36312d2030203020302e36310a665420312030662f0a;
0x542031313234342e38333220393639352e34393520302e36312d2030203020302e36310a665420312030662f0a54420a54450a6a54203e333030303635303037;
0x353620302e36312d2030203020302e36310a665420312030662f0a54420a54450a6a54203e3330303034303030313530304135303032353030373430303c0a6d;
0x20302e36312d2030203020302e36310a665420312030662f0a54420a54450a6a54203e33303030433230303c0a6d542031313234342e38333220393135302e31;
0x30203020302e36310a665420312030662f0a54420a54450a6a54203e3330303030353030343430303c0a6d542031313234342e3833322035363933362e323636;
0x36310a665420312030662f0a54420a54450a6a54203e3330303032353030363530303c0a6d542031313234342e38333220333939382e34393620302e36312d20;
0x420a54450a6a54203e33303030433330303533303038323030393330303c0a6d5420313234342e3236322035353039352e353720302e36312d2030203020302e;
0x383430303535303043343030373530303c0a6d5420313234342e32363220383132362e32323120302e36312d2030203020302e36310a665420312030662f0a54;
0x6d5420313234342e3236322031363430302e35363120302e36312d2030203020302e36310a665420312030662f0a54420a54450a6a54203e3330303037343030;
0x342e3236322032343231352e35383120302e36312d2030203020302e36310a665420312030662f0a54420a54450a6a54203e3330303039343030323530303c0a;
0x36312d2030203020302e36310a665420312030662f0a54420a54450a6a54203e3330303041343030313530304334303038343030353430303c0a6d5420313234;
0x36310a665420312030662f0a54420a54450a6a54203e333030304634303046343030343430303c0a6d5420313234342e3236322035353034332e35333220302e;
0xa6a54203e3330303038343030313530303235303046343030343430303c0a6d5420313234342e32363220383132312e39353220302e36312d2030203020302e;
0x35303038343030423430303c0a6d5420313234342e3236322037313133322e38303320302e36312d2030203020302e36310a665420312030662f0a54420a5445;
0x2f20656761502f20657079542f203c3c0a6a626f20302033310a6a626f646e650a6d6165727473646e650a0a54450a6a54203e37423030343030303834303035;
0x383938382e3134382d2033363537322e353935203020305b20786f42616964654d2f205220302032312073746e65746e6f432f20522030203120746e65726150;
0x300a206e20303030303020353130303030303030300a206620353335353620303030303030303030300a343120300a666572780a6a626f646e650a3e3e205d33;
0x30303030300a206e20303030303020303732303030303030300a206e20303030303020313931303030303030300a206e20303030303020323431303030303030;
0x3938313730303030300a206e20303030303020333934303730303030300a206e20303030303020313834363630303030300a206e203030303030203037323636;
0x303020363433313431303030300a206e20303030303020373534343031303030300a206e20303030303020373533343031303030300a206e2030303030302035;
0x20657a69532f203c3c0a72656c696172740a206e20303030303020333639303531303030300a206e20303030303020383434313431303030300a206e20303030;
0x464f4525250a3536303135310a6665727874726174730a3e3e205220302033206f666e492f20522030203220746f6f522f203431].
(** tests/alice.rs:12-19 *)
Definition alice_style (f : font) : plain_style := mkPlainStyle 210 297 20 f 16 (3 # 2) true.
(** tests/alice.rs:20-22 *)
Definition alice_doc (included_font : option (parsed_font * font)) : option bytes :=
  match included_font with
  | Some (pf, f) =>
      match plain_layout_in f32 print32 (FontCmap.glyph_id Debug pf) (alice_style f) alice_txt (positions 0 alice_pieces) with
      | Some (Ok d) => Some (doc_write d)
      | _ => None
      end
  | None => None
  end.
(** tests/alice.rs:30.  [Eval vm_compute in alice_is_expected (included 1 vera_ttf)] gives [true].  It is not a
    theorem of this development because it takes 13 minutes with the virtual machine of Coq and far longer without. *)
Definition alice_is_expected (included_font : option (parsed_font * font)) : bool :=
  match alice_doc included_font with
  | Some b => bytes_eqb b (alice_start ++ vera_ttf ++ alice_end)
  | None => false
  end.
