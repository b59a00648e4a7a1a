(** The bytes of the font file that victor/src/fonts/mod.rs:295-297 includes in the program. *)
From Verif Require Import Base.
Local Open Scope N_scope.

(** Numbers of 64 bytes each, the first byte is the lowest; the last number has those that are left. *)
Fixpoint low_bytes (n : nat) (x : N) : bytes :=
  match n with
  | O => []
  | S n => N.land x 255 :: low_bytes n (N.shiftr x 8)
  end.
(** The file of fonts/mod.rs:296, number by number *)
Fixpoint unpack_loop (left : nat) (l : list N) : bytes :=
  match l with
  | [] => []
  | x :: r => low_bytes (Nat.min 64 left) x ++ unpack_loop (left - 64) r
  end.
(** The file of fonts/mod.rs:296 *)
Definition unpack (length : N) (l : list N) : bytes := unpack_loop (N.to_nat length) l.

(** fonts/mod.rs:296: the 65932 bytes of victor/fonts/vera/Vera.ttf *)
Definition vera_ttf : bytes := unpack 65932 [
0x20747663580300006cb10000a0e8c3a470616d6336000000c8eb0000975e8ad1544c43505600000070eb000063f45fb4322f534f100004000001110000000100;
0x786d64687e8a0000ec260000cf41740c66796c670c0000004801010007000700707361678b00000060260000c4f1b4e76d677066fc010000fc1e0000391dd3ff;
0x6e72656b30040000c4b40000b28ec60978746d68240000004ceb00006f084510616568683600000054010100d0a284dd646165684815000000ec00000e21f034;
0x74736f70df1d00001c010000b5c8bcd9656d616e200000002ceb00003a0647057078616d1a02000084bb00003dd2cbf361636f6c8a2d0000a0bd000099d552dc;
0x1003a001300010000000000010000003a0000000000000001000e011600000068050000f820000000f1073b706572708e020000f4b80000bb2f5ab4;
0x300007000000000001004d001700060000000000010064000c0005000000000001003a00130004000000000001003a00130003000000000001005f0005000200;
0x3000f0a260001000904010003009b0974000000090401000300700013090d00000000000100830918000b000000000001006c080e000800000000000100ad00;
0x90401000300350a2e000600090401000300630a180005000904010003000f0a260004000904010003000f0a26000300090401000300590a0a00020009040100;
0x20796220333030322029632820746867697279706f437b0a26120d00090401000300a11c30000b00090401000300731a1c000800090401000300f50a60000700;
0x6d6165727473746942736e61532061726556206d61657274737469422e646576726573655220737468676952206c6c41202e636e49202c6d6165727473746942;
0xd2e636e49202c6d616572747374694220796220333030322029632820746867697279706f4330312e3120657361656c65526e616d6f522d736e615361726556;
0x616572747374694220666f206b72616d656461727420612073692061726556206d61657274737469420a0d2e646576726573655220737468676952206c6c410a;
0x20796e61206f74202c65677261686320666f2065657266202c6465746e61726720796265726568207369206e6f697373696d7265500a0d0a0d2e636e49202c6d;
0x282065736e6563696c207369687420676e69796e61706d6f6363612073746e6f662065687420666f2079706f63206120676e696e696174626f206e6f73726570;
0x226572617774666f5320746e6f462220656874282073656c6966206e6f697461746e656d75636f64206465746169636f73736120646e6120292273746e6f4622;
0x6874697720676e6964756c636e69202c6572617774666f5320746e6f4620656874206574756269727473696420646e6120656375646f72706572206f74202c29;
0x7562697274736964202c6873696c627570202c656772656d202c79706f63202c657375206f742073746867697220656874206e6f69746174696d696c2074756f;
0x6f737265702074696d726570206f7420646e61202c6572617774666f5320746e6f462065687420666f20736569706f63206c6c657320726f2f646e61202c6574;
0x74206f74207463656a627573202c6f73206f64206f742064656873696e727566207369206572617774666f5320746e6f4620656874206d6f6877206f7420736e;
0x6f6e206b72616d656461727420646e6120746867697279706f632065766f6261206568540a0d0a0d3a736e6f697469646e6f6320676e69776f6c6c6f66206568;
0x736569706f63206c6c61206e6920646564756c636e69206562206c6c61687320656369746f6e206e6f697373696d726570207369687420646e61207365636974;
0x74666f5320746e6f46206568540a0d0a0d2e736563616665707974206572617774666f5320746e6f462065687420666f2065726f6d20726f20656e6f20666f20;
0x68742072616c75636974726170206e6920646e61202c6f7420646564646120726f202c64657265746c61202c6465696669646f6d2065622079616d2065726177;
0x61206465696669646f6d2065622079616d2073746e6f4620656874206e69207372657463617261686320726f20736870796c6720666f20736e67697365642065;
0x6e6f202c73746e6f4620656874206f742064656464612065622079616d207372657463617261686320726f20736870796c67206c616e6f69746964646120646e;
0x77206568742072656874696520676e696e6961746e6f6320746f6e2073656d616e206f742064656d616e6572206572612073746e6f662065687420666920796c;
0x6c756e2073656d6f6365622065736e6563694c20736968540a0d0a0d2e2261726556222064726f772065687420726f20226d616572747374694222207364726f;
0x6874206572617774666f5320746e6f4620726f2073746e6f46206f7420656c626163696c70706120746e6574786520656874206f742064696f7620646e61206c;
0x726556206d61657274737469422220656874207265646e7520646574756269727473696420736920646e61206465696669646f6d206e65656220736168207461;
0x732072656772616c206120666f207472617020736120646c6f732065622079616d206572617774666f5320746e6f46206568540a0d0a0d2e73656d616e202261;
0x206572617774666f5320746e6f462065687420666f2065726f6d20726f20656e6f20666f2079706f63206f6e20747562206567616b636170206572617774666f;
0x454449564f5250205349204552415754464f5320544e4f46204548540a0d0a0d2e666c6573746920796220646c6f732065622079616d20736563616665707974;
0x434e49202c4445494c504d4920524f2053534552505845202c444e494b20594e4120464f2059544e41525241572054554f48544957202c225349205341222044;
0x544946202c5954494c494241544e41484352454d20464f20534549544e415252415720594e41204f5420444554494d494c20544f4e2054554220474e4944554c;
0x202c544847495259504f4320464f20544e454d45474e4952464e494e4f4e20444e412045534f505255502052414c55434954524150204120524f46205353454e;
0x4f204d4145525453544942204c4c41485320544e455645204f4e204e49202e544847495220524548544f20524f202c4b52414d4544415254202c544e45544150;
0x524548544f20524f20534547414d4144202c4d49414c4320594e4120524f4620454c4241494c204542204e4f495441444e554f4620454d4f4e47204548542052;
0x4c41544e454449434e49202c5443455249444e49202c4c414943455053202c4c4152454e454720594e4120474e4944554c434e49202c5954494c494241494c20;
0x4f54202c54434152544e4f4320464f204e4f49544341204e41204e492052454854454857202c534547414d4144204c4149544e45555145534e4f4320524f202c;
0x5355204f54205954494c4942414e4920524f204553552045485420464f2054554f202c4d4f524620474e4953495241202c45534957524548544f20524f205452;
0x2e4552415754464f5320544e4f4620454854204e492053474e494c41454420524548544f204d4f524620524f204552415754464f5320544e4f46204548542045;
0x20656874202c656d6f6e4720666f2073656d616e20656874202c656369746f6e2073696874206e692064656e6961746e6f63207361207470656378450a0d0a0d;
0x7265766461206e69206465737520656220746f6e206c6c616873202c2e636e49206d616572747374694220646e61202c6e6f697461646e756f4620656d6f6e47;
0x692073676e696c61656420726568746f20726f20657375202c656c6173206568742065746f6d6f7270206f742065736977726568746f20726f20676e69736974;
0x6874206d6f7266206e6f6974617a69726f68747561206e65747469727720726f6972702074756f68746977206572617774666f5320746e6f462073696874206e;
0x207265687472756620726f46202e796c65766974636570736572202c2e636e49206d616572747374694220726f206e6f697461646e756f4620656d6f6e472065;
0x61657274737469622e7777772f2f3a707474682e67726f20746f6420656d6f6e672074612073746e6f66203a746361746e6f63202c6e6f6974616d726f666e69;
0x6500720074007300740069004200200079006200200033003000300032002000290063002800200074006800670069007200790070006f0043006d6f632e6d;
0x7400690042002e0064006500760072006500730065005200200073007400680067006900520020006c006c00410020002e0063006e00490020002c006d0061;
0x6e006100530061007200650056006d006100650072007400730074006900420073006e00610053002000610072006500560020006d00610065007200740073;
0x290063002800200074006800670069007200790070006f004300300031002e003100200065007300610065006c00650052006e0061006d006f0052002d0073;
0x6900520020006c006c0041000a000d002e0063006e00490020002c006d00610065007200740073007400690042002000790062002000330030003000320020;
0x69002000610072006500560020006d00610065007200740073007400690042000a000d002e0064006500760072006500730065005200200073007400680067;
0x2e0063006e00490020002c006d0061006500720074007300740069004200200066006f0020006b00720061006d006500640061007200740020006100200073;
0x6400650074006e00610072006700200079006200650072006500680020007300690020006e006f0069007300730069006d007200650050000a000d000a000d;
0x20006e006f007300720065007000200079006e00610020006f00740020002c00650067007200610068006300200066006f002000650065007200660020002c;
0x630061002000730074006e006f0066002000650068007400200066006f002000790070006f00630020006100200067006e0069006e0069006100740062006f;
0x2200730074006e006f004600220028002000650073006e006500630069006c0020007300690068007400200067006e00690079006e00610070006d006f0063;
0x660020006e006f0069007400610074006e0065006d00750063006f00640020006400650074006100690063006f00730073006100200064006e006100200029;
0x720020006f00740020002c00290022006500720061007700740066006f005300200074006e006f0046002200200065006800740028002000730065006c0069;
0x74006e006f004600200065006800740020006500740075006200690072007400730069006400200064006e006100200065006300750064006f007200700065;
0x6d0069006c002000740075006f006800740069007700200067006e006900640075006c0063006e00690020002c006500720061007700740066006f00530020;
0x2c00790070006f00630020002c0065007300750020006f0074002000730074006800670069007200200065006800740020006e006f00690074006100740069;
0x64006e00610020002c00650074007500620069007200740073006900640020002c006800730069006c0062007500700020002c0065006700720065006d0020;
0x740066006f005300200074006e006f0046002000650068007400200066006f00200073006500690070006f00630020006c006c0065007300200072006f002f;
0x770020006f007400200073006e006f0073007200650070002000740069006d0072006500700020006f007400200064006e00610020002c0065007200610077;
0x6800730069006e0072007500660020007300690020006500720061007700740066006f005300200074006e006f004600200065006800740020006d006f0068;
0x6c006c006f006600200065006800740020006f00740020007400630065006a0062007500730020002c006f00730020006f00640020006f0074002000640065;
0x63002000650076006f006200610020006500680054000a000d000a000d003a0073006e006f0069007400690064006e006f006300200067006e00690077006f;
0x61002000730065006300690074006f006e0020006b00720061006d0065006400610072007400200064006e006100200074006800670069007200790070006f;
0x20006c006c00610068007300200065006300690074006f006e0020006e006f0069007300730069006d0072006500700020007300690068007400200064006e;
0x65006e006f00200066006f00200073006500690070006f00630020006c006c00610020006e006900200064006500640075006c0063006e0069002000650062;
0x7900740020006500720061007700740066006f005300200074006e006f0046002000650068007400200066006f002000650072006f006d00200072006f0020;
0x61006d0020006500720061007700740066006f005300200074006e006f00460020006500680054000a000d000a000d002e0073006500630061006600650070;
0x64006500640064006100200072006f0020002c00640065007200650074006c00610020002c006400650069006600690064006f006d00200065006200200079;
0x6700690073006500640020006500680074002000720061006c00750063006900740072006100700020006e006900200064006e00610020002c006f00740020;
0x6800740020006e00690020007300720065007400630061007200610068006300200072006f00200073006800700079006c006700200066006f00200073006e;
0x6900640064006100200064006e00610020006400650069006600690064006f006d002000650062002000790061006d002000730074006e006f004600200065;
0x2000790061006d0020007300720065007400630061007200610068006300200072006f00200073006800700079006c00670020006c0061006e006f00690074;
0x7400200066006900200079006c006e006f0020002c00730074006e006f004600200065006800740020006f0074002000640065006400640061002000650062;
0x6f006e002000730065006d0061006e0020006f0074002000640065006d0061006e006500720020006500720061002000730074006e006f0066002000650068;
0x4200220020007300640072006f00770020006500680074002000720065006800740069006500200067006e0069006e006900610074006e006f006300200074;
0xd000a000d002e002200610072006500560022002000640072006f0077002000650068007400200072006f00200022006d0061006500720074007300740069;
0x7600200064006e00610020006c006c0075006e002000730065006d006f006300650062002000650073006e006500630069004c00200073006900680054000a;
0x20006f007400200065006c0062006100630069006c00700070006100200074006e006500740078006500200065006800740020006f0074002000640069006f;
0x20007300610068002000740061006800740020006500720061007700740066006f005300200074006e006f004600200072006f002000730074006e006f0046;
0x64006500740075006200690072007400730069006400200073006900200064006e00610020006400650069006600690064006f006d0020006e006500650062;
0x65006d0061006e0020002200610072006500560020006d00610065007200740073007400690042002200200065006800740020007200650064006e00750020;
0x73002000650062002000790061006d0020006500720061007700740066006f005300200074006e006f00460020006500680054000a000d000a000d002e0073;
0x6500720061007700740066006f0073002000720065006700720061006c0020006100200066006f0020007400720061007000200073006100200064006c006f;
0x6d00200072006f00200065006e006f00200066006f002000790070006f00630020006f006e00200074007500620020006500670061006b0063006100700020;
0x630061006600650070007900740020006500720061007700740066006f005300200074006e006f0046002000650068007400200066006f002000650072006f;
0x4500480054000a000d000a000d002e0066006c006500730074006900200079006200200064006c006f0073002000650062002000790061006d002000730065;
0x490020005300410022002000440045004400490056004f005200500020005300490020004500520041005700540046004f005300200054004e004f00460020;
0x44004e0049004b00200059004e004100200046004f002000590054004e00410052005200410057002000540055004f00480054004900570020002c00220053;
0x200047004e004900440055004c0043004e00490020002c004400450049004c0050004d004900200052004f002000530053004500520050005800450020002c;
0x4500490054004e0041005200520041005700200059004e00410020004f005400200044004500540049004d0049004c00200054004f004e0020005400550042;
0x4f00460020005300530045004e0054004900460020002c005900540049004c0049004200410054004e00410048004300520045004d00200046004f00200053;
0x4e0049004e004f004e00200044004e0041002000450053004f0050005200550050002000520041004c00550043004900540052004100500020004100200052;
0x2c0054004e00450054004100500020002c0054004800470049005200590050004f004300200046004f00200054004e0045004d00450047004e004900520046;
0x4e0020004e00490020002e0054004800470049005200200052004500480054004f00200052004f0020002c004b00520041004d004500440041005200540020;
0x47002000450048005400200052004f0020004d004100450052005400530054004900420020004c004c00410048005300200054004e0045005600450020004f;
0x4e004100200052004f004600200045004c004200410049004c0020004500420020004e004f0049005400410044004e0055004f004600200045004d004f004e;
0x4c0049004200410049004c00200052004500480054004f00200052004f00200053004500470041004d004100440020002c004d00490041004c004300200059;
0x430045005000530020002c004c004100520045004e0045004700200059004e004100200047004e004900440055004c0043004e00490020002c005900540049;
0x4f004300200052004f0020002c004c00410054004e0045004400490043004e00490020002c005400430045005200490044004e00490020002c004c00410049;
0x20004e0049002000520045004800540045004800570020002c0053004500470041004d004100440020004c004100490054004e00450055005100450053004e;
0x4f00200052004f002000540052004f00540020002c00540043004100520054004e004f004300200046004f0020004e004f00490054004300410020004e0041;
0x5400200046004f002000540055004f0020002c004d004f0052004600200047004e004900530049005200410020002c00450053004900570052004500480054;
0x46002000450048005400200045005300550020004f00540020005900540049004c004900420041004e004900200052004f0020004500530055002000450048;
0x49004c00410045004400200052004500480054004f0020004d004f0052004600200052004f0020004500520041005700540046004f005300200054004e004f;
0x6300780045000a000d000a000d002e004500520041005700540046004f005300200054004e004f004600200045004800540020004e0049002000530047004e;
0x2c0065006300690074006f006e002000730069006800740020006e0069002000640065006e006900610074006e006f00630020007300610020007400700065;
0x4600200065006d006f006e004700200065006800740020002c0065006d006f006e004700200066006f002000730065006d0061006e00200065006800740020;
0x730020002c002e0063006e00490020006d0061006500720074007300740069004200200064006e00610020002c006e006f0069007400610064006e0075006f;
0x200067006e0069007300690074007200650076006400610020006e00690020006400650073007500200065006200200074006f006e0020006c006c00610068;
0x65006c006100730020006500680074002000650074006f006d006f007200700020006f0074002000650073006900770072006500680074006f00200072006f;
0x2000730069006800740020006e0069002000730067006e0069006c00610065006400200072006500680074006f00200072006f00200065007300750020002c;
0x7400690072007700200072006f006900720070002000740075006f00680074006900770020006500720061007700740066006f005300200074006e006f0046;
0x65006d006f006e004700200065006800740020006d006f007200660020006e006f006900740061007a00690072006f00680074007500610020006e00650074;
0x720020002c002e0063006e00490020006d0061006500720074007300740069004200200072006f0020006e006f0069007400610064006e0075006f00460020;
0x61006d0072006f0066006e00690020007200650068007400720075006600200072006f00460020002e0079006c006500760069007400630065007000730065;
0x6f006400200065006d006f006e0067002000740061002000730074006e006f00660020003a0074006300610074006e006f00630020002c006e006f00690074;
0xb8003501006d006f0063002e006d00610065007200740073007400690062002e007700770077002f002f003a0070007400740068002e00670072006f00200074;
0xcb0033004a010004aa03cb008700aa00d300f000a600cb002d028901cb01c300b80075008500b202a000cb00710000006600b800a6019c00aa00c100cb00cb00;
0xc9001202c50339055605a6055605a203330173046004cd0473043700cd04e704b8045204b4044e04000406073901140139019c00b4005401f4000205d9000000;
0x9a009a00cd05c7008f0052027b027f006f011400b8007b00a4008f00cb0000000404aa03e500aa03cd03df000e044404bc033303e903ba007300df01b8001f00;
0xd505000473009a008f00cd00a400c700d3006602330300007f0254038300f600cb00c100d5019e00480204039800d5008301ba00f000d3019e01cd00cb006f00;
0xd300a0009306ec01c301a600cb00b800d30123071406b806a40054007b007f00f005d505d505d5052d031d0000009c00620000009c00b400a4002b02fe000a01;
0x7b0062076004e900aa016004770200009c007b0460046004600479016606230714069a01d5058f0060033901140139018f004804a80423048501db0371035c03;
0x6a0035036f0000006f007d0700009c009c002f044a07cd001d0000007b008f00890385013b01cd00100677006600bc006600cd055202b40000007b027f00c500;
0x3fefbff408002b8001400007300ee04660029004403cd00f6028d018f006602e1049c008f00f605370654038300f6007b028f0096032d00b200ae007b006f00;
0x3fee70342e8033ae903feea03faeb03faec0396ed0396ee03feef05418aef0325f00396f1030ef20325f303fef403fef5030ef60396f70332f80325f90314fa;
0x37dd605418ad603fed803bbd9037dda0312db03fedc0396dd0314de0332df03fee003fee1032fe203fae3052fe2e30353e405418ae40396e50553e4e50332e6;
0x3fec40316c5031cc6051185c603fec90332ca031ecb03fecc051ecbcc0396cd03fece03fecf03fed003fed1031bd203fed3051bd2d30347d4037dd50547d4d5;
0xb603ff405db60525b5b60480b703bbb7055db6b703feb805bbb7b803feb9052586b90311ba03febb03febc03febd03febe03febf03fec003fec103fec203fec3;
0x12a503fea603fea703fea803faa905418aa90312aa0325ab0512aaab0364ac0525abac030ead0364ae03feaf03feb003feb103feb20396b303feb40325b50440;
0x50d969703fe98030a9903109a03199b05109a9b03649c05199b9c030c9d03fe9e050c9d9e03fe9f0396a005418aa00364a1030ea20332a3050ea2a303fea403;
0x8c052e8b8c03fe8d03258e04408f035d8f05258e8f04809003bb90055d8f9003fe9105bb909103fa92030e93032894050e939403969505418a95030d9603fe97;
0x7eff4003fe7f03fe8003fe8103118203fe830511828303fe840311850325860511858603648705258687030b88031489050b888903418a0525868a032e8b03fe;
0x3fe6b03216c03fe6e03fe6f03fe7003fa7103fa7203fa7303fa7403fe75030a76030c77030e7803fe7903fe7a03257b0515547b03647c037d7d03fe7e057d7d;
0x5191657030a5803fa59050a585903fe5a03fe5b03fe5d030c5e03fa60033a6103fe6203fe6303fe6403fe6503fe6605421167037d6803fe6903536a0542116a;
0x4a0510494a03fe4b05134a4b03fe4c03104d03fe4e05104d4e03fe4f030b5003fe5105134a51031452031853051001530315540342550515545503fe56033257;
0xff403c050d3b3c03123d050f3c3d03143e05123d3e03fe3f03fe40034b4103bb4203fa43052d024303fe4403964503964603fe47030d48031049050d1d490313;
0x92d2e030b2f030d30050b2f30030b3103fe32050b3132030d33031e34030b35031036050b35360314370510363703fa380514373803fe3903fe3a030d3b030f;
0x2003122105100121030f2203fe2303fe24030b25030f26050b25260325270341280525272803122903252a0512292a03642b05252a2b03322c03092d03102e05;
0x42111203fe1303fe1403fe150319160510011603fe170519161703641803fe190542111903421a03fa1b03fe1c0542111c030d1d03641e050d1d1e03fa1f0364;
0x4003fe040510010403640603140703fe08052d020803fe0903100a03fe0b03160c0510010c03fe0d05160c0d03fe0e03640f037d10034211052d021103fe1205;
0x2b2b2b2b2b2b2b2b2b2b2b2b2b2b2b2b2b2b2b2b2b2b2b2b2b2b2b2b2b2b2b2b2b2b2b2b018d856401b80103fe00031001032d020510010203fe03052d020315;
0x2b2b2b2b2b2b2b2b2b2b2b2b2b2b2b2b2b2b2b2b2b2b2b2b2b2b2b2b2b2b2b2b2b2b2b2b2b2b2b2b2b2b2b2b2b2b2b2b2b2b2b2b2b2b2b2b2b2b2b2b2b2b2b2b;
0x2b2b2b2b2b2b2b2b2b2b2b2b2b2b2b2b2b2b2b2b2b2b2b2b2b2b2b2b2b2b2b2b2b2b2b2b2b2b2b2b2b2b2b2b2b2b2b2b2b2b2b2b2b2b2b2b2b2b2b2b2b2b2b2b;
0x2b2b2b2b2b2b2b2b2b2b2b2b2b2b2b2b2b2b2b2b2b2b2b2b2b2b2b2b2b2b2b2b2b2b2b2b2b2b2b2b2b2b2b2b2b2b2b2b2b2b2b2b2b2b2b2b2b2b2b2b2b2b002b;
0x2b2b2b2b2b2b2b2b2b2b2b2b2b2b2b2b2b2b2b2b2b2b2b2b2b2b2b2b2b2b2b2b2b2b2b2b2b2b2b2b2b2b2b2b2b2b2b2b2b2b2b2b2b2b2b2b2b2b2b2b2b2b2b2b;
0xb064492502b02c2d2159c820585140b064492502b010202c00010203040506b61d2b2b2b2b2b2b2b2b2b2b2b2b2b2b2b2b2b2b2b2b2b2b2b2b2b2b2b2b2b2b2b;
0x2503b01c05b059051b045850ffffb820790db05000b020e1232504b0082503b01c05b059051b045850ffffb820790db05000b0200710202c2d2159c820585140;
0xfb040c401a0007000300a405660496fe66000200002d44452c2d21215944452502b02502b058534b2c2d4460452502b02c2d21594445fdb02058504b2c2de108;
0x400009000300d5050002000035010200290672f2f80e0796fee5fc1b0373fc000466211121251121111330ecd4ecd4100031ecd4c42f0004027f050801fb0600;
0x5d030b500b200b00b65938371138c0ff0a000a00010040000a00bd58540bb04b0130ccfce42f0031393932ec3cfc100a00000403010507080281048300070f40;
0xfcfc100804020500060504088100048401050f404d0007000300d505e902aa03c500020065019bfe71fdd505fefe15a214cbcbcb350103230311331123153325;
0x231121112311015d0709bf09a0097009600950094009300f405938371138c0ff08000800010040000800bd585b5413b04b5412b04b013032ec3cf4100031ecdc;
0x13141516171a1b1c1e1f11150f131787020d1905091d040787000b1b314060001f000300be05170600009e000200002b02d5fd2b02d5fdd505aa2402aa6f0111;
0x81f14121a111a04140d0b0c0b020b010b1140303232ec32c43c3cd43c3cfc3c3cd43c2f00313917ccfc102006180a1a000102030405060708090c0d0e101112;
0xa167dbfe67a0689bfe3e0152a1fe380167a06924016844250154ddfe17041321352113213521132303211323032115210321152103331321010b210321015d01;
0x2225540d5002f002800210014066d04d3feaa000300009f019a4e01999e0162fe9e0162fe99b2fe9a61fe9f0161fe8703b2fe8503666901befe546001c5fe68;
0x1e0a16082d0289058a2a001089168a1a23110586061686170205212a09061704291b0a22101113422f2929021b2f292f021c1e011d0a0b0b02282601270a0b0a;
0x758534b30391211391712113911391211ee10ee10c432ece4d4c4ece42f0031ece4f43c17fc3c17f4ec3cfc103006050d0826070103091022090003121a2907;
0xbd585b540fb04b5b5410b04b540cb04b015938371138c0ff30003000010040003000bd585409b04b012259ed041007391711ed0e1007391711ed0e1007ed0410;
0x3435013e1117161415010e110307061415011e1127012e1517011e15333537363435012e1117011e3527012e03230159383711384000300030000100c0ff3000;
0x55fe042e2aaf1b1f04e8eb0ebca396ac24c801014140b42d2d022d01d3fe7b817fe1717a7464d6e3d6e35caf5353ae5d64ccdac9dd6fd1666ad2690164b40226;
0x921e0c9200422724270f262526250f243640950033002700230017000b00f0052907e3ff710005000068585a6e114ffed56056586a0d9a0100030fc3a99cb423;
0xee10ece43cf432e41000313912113911eef6ee10ecf4ecc4fc10340b310f0d1b0e2b0d210f0d090e150d0309251b2127349124288c12268d0c92062492188d2e;
0x1138c0ff34003400010040003400bd585b540db04b5b540eb04b5b5414b04b5b540cb04b5b540bb04b5409b04b012259ed051007ed05100758534b30ee10eef6;
0x63635557636357d10536343526222306141516321323013325263435363233161415062201363435262223061415163227263435363233161415062201593837;
0x6f3f97f96818494948482956102dbbcbbdbdbbbbbdc7f95838295958284949102bab99f9fbbbc9e1fa05afca031036463575762635697fcbbbaa09dbbba9e55;
0x1d86010301021516168608060107151615090086091112120b0a860b111211860c0e010d9640cd0130000900f005fe05e3ff8100020000dcbabcdbdabdbbdb0d;
0x603090b12420a131311140a131115180216170a130a1100030201020a13131109060208070a13111418031516170a130a111e21021f201d1e1e000986001d1e;
0x12113911eec610ecd4d4c4ecfc1031101b120321130f110e2127122e031e0e2715122e00090e0b2e0a130e8c1891249427952b1895062728060e1528031e0a00;
0x391711ed0507391711ed051007391711ed051007391711ed0507ed05100758534b30391711391711391211c610ee10eee6f6e4c62f0031391139113939113939;
0xb17021f011c001c290922050b07b2405d0101320fb22259391711ed0e1007ed081007ed081007391711ed0e1007391711ed0e1007ed081007391711ed051007;
0x19091b0218280c270c11080c090b091f2d992295169515930b9508970299019a009b007b1e6730591f5a1a5a12550a5a0159005e0b441234003a1226012a002a;
0x690c6a325f1f5c135912550c59095a0156324f1946154b144c094a323f13391234093b322f1528142a132a1223092901270027321f1d16151c141c11190c190b;
0x23010e2723010702063337013e010937363233161415010e015d005d3932b032a032900c9a0b9b099a089f089c079c0595029701930093117a0c790175326011;
0x5755a553b8de32308686cefef183e4688ffc17015d680cba06423bfc017bfe49a65fa0d4555bf201161415062223012e1517163233363435012e373634350022;
0x42000300d5056f01aa03c50001006733586f312fb62424c5a23c7d3f63e180d71301575993e3fe7efefe8472cb59f8fd8f02403fc29258a15123033b8369449e;
0x5a0059005700560055005400d405938371138c0ff04000400010040000400bd585b5413b04b5412b04b0130ecf4100031ecfc10040402050004810084010a40;
0xb04b0130ecfc100031393911ec32e4dc100e0a130006120300070d0e970098060f404f000d0012067b02f2feb0000100002b02d5fdd505aa6f01112311015d06;
0x8382867b023712343502262317121415020601593837113840000e000e000100c0ff0e00bd58540fb04b015938371138c0ff0e000e00010040000e00bd585413;
0x31393911ecf43cdc100e00081304120b0001070e970098070f401f000d0012066f02f2fea4000100ecc401dfe0c601ebe53bfee7e73efee6120697949596a085;
0xd102c404e001100f005c3034a023d000100c201e7e7c501e5eb3afee0df3cfeec1206838385a096959596a0a4023435123623070214151216331330ecfc1000;
0xec3cd4f410003139171211391732e43cdc32e43cd41012060d14090b040f140002030103110609030a0c0812910e010a990c110599030804020407090c04000b;
0xc362cb790187fecb62c3c2df0450017250013a99fe67013ab0fe72b0fe3a670199fec30325113311053725252705112311250705050130391712391732ecc432;
0x2311211521110130c43cfc3cd42f0031ec3cfc3cfcdc100c0815060a17000415020503079c010900114023000b000405db050000d9000100cb87fe7901cb63c2;
0x100031ccd4ecfc10061800190104030683009e030c4019000500fe00c30112ff9e0001002d02aa2d02d3fdaad3fd04052d02d3fda8d3fd2d02ae031121352111;
0xa48302e5fd1b02642115211330ecd4100031ccdc1004000104029c00b61100030083027f02df01640001004001c0feacfe5281a4d3f013230315333730ecfc;
0x31a020102011a0014402d000300d505b20242ff00000100fefed3d3db2315333730ec2f0031ecfc100418001901028300b711000300fe00ae010000db000100;
0x17000b00f0058f04e3ff87000200006df9d505aaf8fdaa0802230133012259ed051007ed05100758534b30ecf41000313939c42f030100020481009f02420300;
0x9c8b0200101100222300101100322702101112323312101102220130ee10ecf4e4100031ecf4ecfc10181b151c031e0f1c09188c12910ca00012a00613402300;
0xd5055a040000e1000100008d017a0179018d0173fe87fe86fe73fea03301340133013301cdfecdfeccfecdfe50050901f7fefbfbf7fe0901fb9d9d9d9d9c9d9d;
0xb000100c0ff0b00bd58540fb04b01225958534b30ecd4ecf432ec2f0031ecfcc4ecd4100b011f00031c061f0809a000078105a00204a0034215404b000a00;
0x2740a5001c00f0054a0400009600010000aad5fa48b8487304aaa4fc4a01ca650199fe4a01fe21152111332535051121375d02040f030fb4593837113840000b;
0x100758534b30ecf4ecf432ec2f0031391211c0c0ecd4c4fc101d060310171c0a01020a100002a000049114a00d9411a1104204050511000405111c18031b1a19;
0x400040719871b76057a047a07560556045532405938371138c0ff1d001d00010040001d00bd585b5414b04b5b5416b04b5415b04b012259391711ed0507ed05;
0x607061415043233013e3507062223263435013e37003635211521255d005d111ba800a81c821b821a82198600821c741b731a75067600741c051b041a0419;
0xf0057304e3ff9c00010000ebfe1d70a55cc2e83231cc4342967749976d3a910177aaaaaaf4fe195b451401e858d47a78d35f86a74d61338d01734cfcc1028901;
0x39391711ecf4ecd4c4c4fc102906091f14031c1020261c19140300131c1629a3158c0691239320a01c069309a00d15a01320861f09860a1315002e407b002800;
0x15d0004216420611f611e6409405938371138c0ff29002900010040002900bd585b5414b04b5416b04b0130391211ee10ee10ee10eee610ece4f4e4ec100031;
0x98a39e95b6aea5b9c7be6dc8546ac75ee8fed0fea3913f03061415043233013e350706222326343536323335012b263435363233011e3527262221041415011e;
0x3000d030d011d408c000d000200d505a404000064000200ab7cb2d12020b426247b737077a695848f963231c32525f2dd90c41f25038e0c01e659c97372be53;
0xdb04b540bb04b012259c9051007c904100758534b30391232ec3cd4e42f0031391132ecc43cd4dc100e0c0408061c000a0c010981030105a0070b0300420d03;
0x185037a0175016601560d4f0c4f014e0136032b0126002b011607008a0077006900590048002a000b2a405938371138c0ff0e000e00010040000e00bd585b54;
0x1a04234075001d00d5056404e3ff9e00010000c36001a0fea833fccd03e3fc25055efdc9d5d5fe35fe0102fe060335211123112315331133032101095d005d0d;
0x16b04b0130391211ee10c4fe10eee610ecf4e4e4100031eec410ecd4c4fc101e06100a001c030a011c171ea4078c0d8100a0020d8910a01407a01a1d10861107;
0x2221001415003233013e1121152113593837113840001e001e000100c0ff1e00bd58540fb04b015938371138c0ff1e001e00010040001e00bd585b5414b04b54;
0x9c9cb63031cb2020f5fef1eaeefe0f0f92feaad50554a151adcacaad6bc05a68c35eeffed4fe2401fa2c582ca0fd1903dd07062223263435363233011e352726;
0xecf4ececfc10251b1f21031c131e191c09220c258c1c9122890ca010a5161ca00616a0000c860d0006132440580024000b00f0059604e3ff8f000200002624b6;
0x3022223012e15012634353632331614150622015d015d021eb21ea40706cb05cb04cd03cd02cd01cb00cb144030391211ee10ee10ee10e4fce4f4e4100031e4;
0x2baa2a1bbbba1a2ba3b039b4c1b015001eefefdfee2f0fe0501e16bb23b0fd3c84c9b4c09019f9f88889f9f88a402163221001011002023001415003233013e;
0x104010305038100a0054204050411030203021105184063000600d50568040000a8000100001ea501620179018d01eafee6ebeffe5d57effef2fe2624b879;
0x480539051a030601025812405938371138c0ff07000700010040000700bd585416b04b012259ed051007ed05100758534b30ecf42f0031393911c4ccfc100706;
0x1ea00627a0000c18254043002f0023000b00f0058b04e3ff8b000300002b0581fa56d50533fdfe01d3e2fdc003a8210123011521135d005d0706b000b0036705;
0x33161415062201303939ee10ee10ecf4e4ec100031393911ee10ee10ecc4f4ecc4fc10301b210f1c031e1b151c090f1c24151c2a240c1830a3278c1e9112a02d;
0xf7fea3928191fedfdeff9182a5fea5a69090a5a5908b020622232634353632331614133634352422230414151616070614151632333634352626252634353632;
0xf0058704e3ff8100020000828274748282746101c68fd9e8e8d98fc62220b280b3d0d0b380b220569a87869b9a87879ac502918382939382839148a4f7fef7f7;
0x11ee10eef5fee610ecf4e4100031ececf4e4ecfc10251b0d1c2222001e13211c1c07258c169110a01f168900a004a50aa019008601191f072340580024001800;
0x62223263435363201262221001011002033003435002223010e13123233011e35375d015d0312e912bc12aa071fc41ec21dc01cc01bc01ac219c41640303912;
0x21e5bfe9ffe86fe73fe1601e6eb0f015c5612010d012624b81f9f9f88889f9f883e019c4ce5feb1fe11010301e21001fbfee06cb23a0fd3c84b9c4ce1161415;
0xd3f0231533112315333730ecf4ec2f003132ec3cfc1008180004030105028300a60483060e401c00070003002304c3010000f000020000baa2a1bbbba1a2ba97;
0x15331330ee10ecfce4100031ccd432ec3cfc100a18000419010508070aa60083049e0700830213402500090003002304c30112ff9e000200fe2304fefed3d3d3;
0x4205069c0005060501029c0103040401009c010304039c022a404d000600a604db055e00d90001004001c0feacd9fdfe23045281a4d3d3d3f013230315331123;
0xfa0804f8fbdb050135011502092259ed041007ed081007ed081007ed040758534b303917ecf41000313932ecfc100723042400020107a706a803050001020405;
0x2115211330ecd4ecd410003132c43cfc1008230004010508049c06029c000d401c0007000300a203db056001d900020000d101a6d101b693fe91fef0030205fe;
0x20305064201020206059c060102019c000304049c0503040306009c062b404f000600a604db055e00d9000100aaf0a8a203fefa0205fefa0205d921152115;
0xb6f0030604fefa0205d9013501150135132259ed081007ed041007ed041007ed08100758534b303917ecf410003139ec3cfc100723000424020607a701a80405;
0x301051c041a1c0d011e0a0405090d1a1d02830091179510881386140004131d0a0406091e242b40700024000300f005b0030000930002006d01b62ffea62ffe;
0xb65938371138c0ff25002500010040002500bd58540cb04b01303917393911cd10eef4fef6ee2f0031391211391211393911ee10ecd4ecfcc4dc1025131a2600;
0x67c15e61b34f6c8333395a5a38bfc5cbcb870115010e07010e010f061415163233013e3507062223263435013e013f3634352313231533255d03207a0a7a0979;
0x9030c18324095004c000b00a20571079cfe8700020000343c1519352f5656894c9fc23839bc43466e59315e35595682659a9101fefe060608272f585a48dfb8;
0x3139391211ee10c63cfefdfe10ecfcecdc104d3d2c49282a2b1249281e2b1a280c18061228001a1e34334d4337a924ac1537a930ac0f33340f4ca9031b1519a9;
0x37113840004d004d000100c0ff4d00bd585b5414b04b5b5413b04b5b5410b04b5b540cb04b5409b04b0030393911eec41032eec510c6d4edfe10ecfcc4d41000;
0x33041617121415020607062223242627263435013e11333517163233363435262223010e010622232634353632331614015d01044e3f4e2f4e1f4e0f09405938;
0xb19d60e27bb0d5fe68403fa5928f3b9c67abd8d7ac679b3c21028f797a908d7b7c8efa0205001015011e17043233243637123435022627242223040617373632;
0x50bc6bb1df1620fd834c4bfac8c8f9494d48fea4a58c8ea4a38f1902e8fec2fe4f4b7b6b01d4bd5201817e88868080b8feb998d9fe7d5a68f9819d1401696d73;
0x111004140ba000a000200d50568050000100002000006d0fef9fe7be662a0ae877f7d4a01b6bd49017d7d8367616f51576d686aeafe9fc1b5fe6640418b83;
0xc4d4100b0a0509000102030406070809050981030195070300420a030a11080a0311090405051106040511070a0303000211000a030a11010405051102040504;
0x8c007000760058000f3a405d01010c20b22259ed081007ed051007ed051007ed081007ed0507ed051007ed0507ed05100758534b303912ecd4e43c2f00313917;
0x223032103230133012101095d005d170496039902980c8002880187087807770472037c02760178026801670c50025801560219011604090306020801070500;
0x80b111fad0a9501811295090a95001923404300200011000800d505ec040000c900030081fe7f012bfaae0319fd0e05d5885ffd88d23902e57bfe2502eefebc;
0x3536322111012326343536322111015d0101220fb23039ee10ecf4ecec2f00313939391711ecd4ecfc32ecfc102104121c00092e1c1905161c0e00051f191302;
0x71726f3efe6602858c8b87ddfdc902e8fdfbf0fea5957c80fae704020bfe949191942b01bcfea39d9da3440193012123041415011e0706141516322125232634;
0xf4e4100031ec32ecfc101a101430000d19071a8c1191179504ae00a10111950aae0ea10d1a4036001900f0052705e3ff73000100dac898cb2014a289b1c0a670;
0xfeadfe84ed6a66e78200011001f0fe00ff82e7662705163221001011002023010e1537363221001011002023012e15015d01021b1f1b0fb430eef6ee10ecf4ec;
0xa1002081095018109950015402e0011000800d505b0050000c9000200479f01680167019f014848d35f5ec7fed9fed8fec7fe5e5fd56205ed86530186017a;
0x142fecbfee1fe1f013501f493010129001011002021252100101100203311015d01011360b230ecf4ec2f00313939393911ecf4ecfc101204091c00320d1905;
0x70901050aad0495088100950204950615402e000b00d5058b040000c900010096fe7efe80fe97fea617012c012e01180177fb2f0561fe50fe68fe9601b2019f;
0x100aae3fdaa46feaad5053efcf80239fdc7021afdb003c92115211121152111211521135d01010d1fb230ee10ecf4ecec2f0031c4c4d432ecfc100c04001c03;
0xc9231121152111211521135d01010b0fb230ee10ecf4ec2f0031c4d432ecfc100a04001c0307010508ad0481009502049506124029000900d50523040000c900;
0xb1918330434111c00021e8c08910e9515ae11a11208951b0395011b0500204039001d00f0058b05e3ff730001000037fdaa48feaad505cab0fd500270fd5a03;
0xe6fe751202b6fec30436322100101100202326261517043221001011002023040611213521112530393911eed4fe10ecf4ecf4e4100031c4fce4fcecfc101e10;
0x3b050000c900010025cefed2fed1fecefe605fd7464899016e016d01990155537ffda69101d5a86b12011301edfeeefe8bfc706f0701925e018b0175fea2fea0;
0xcac92311211123113311211133135d01010d50b230ecfc32e43c2f003132ecfc32ecfc100c04001c010938051c0307060a810004ad02950814402c000b00d505;
0x100c0ff0400bd585410b04b0130ec2f0031ecfc100404001c0102af00b739000300d50593010000c90001000039fdc7022bfa64029cfdd505ca22fdcacade02;
0xc8100b005950700020b13404d000b00d505930166fe96ff01002bfad505cacac9231133135d06059f058f05600550054005300d405938371138400004000400;
0x60d9f0d8f0d600d500d400d300d40593837113840000c000c000100c0ff0c00bd585410b04b0130393911ecfce41000313939e4ecfc100c04001c0139060805;
0x20405041103050606110705060511082840ef000a00d5056a050000c900010000c296aaf4f2fe93fad5056e863f4de3cdcac93536323335012b06101133135d;
0x8b22259ed041007ed051007ed051007ed04100758534b30391732ec3c2f00313911c4d432ecfc100b04001c0108060401050609af0003030205084204050511;
0xa050719031b0609050903061502e7089b0294088f0588028305770276026702550843054602470834053602370828052802160809020401021492405d010103;
0xb503b6079d069d039a0c8f078f068e058b038b0c70057707670568046003620c40074006400545044003410c300735063605360436072a062b05280318070a03;
0xfc48fd770289fdd505ca33fdf6fe1a031bfd04019e02cac92311012101092101113313715d00715d2c06f905f803f706ea05e804e903e807d603d707c503c507;
0xc92115211133135d01040480038007500730094030ece42f0031ececfc100604003a031c0104810095020c4025000500d5056a040000c90001000031fdcf02e3;
0x809050b08af0003080302070a42090a0a1101090a09020311020708080201110207080711033440bf000c00d5051f060000c9000100aad5fad5055ffcd702ca;
0x70356405d01010e70b22259ed051007ed081007ed081007ed05100758534b3039171132ecc43c2f0031391711ecfcecfc100d04001c0a3e041c060a05010203;
0x56033c013409280827032c0123031b0113030b01041602900a82078202800a79077b027c02690a3507340a200a260720072602260a13071402150a02090f080f;
0xfc1f052bfaf80308fcd505c47ffecb7ffec52d017f017d012d01c9231101230111231121010921135d005d14039b0195038d018109790876096a0865095908;
0x32ec3c2f0031393911ecfcecfc100a04001c0736041c020701060508af0003020742060706110201020111071e4079000900d50533050000c9000100e1fa0004;
0x8a01850679066901650658015706490146061a01150609010607028007660269074702480738023630405d01010b1fb22259ed041007ed04100758534b303939;
0x95061340230017000b00f005d905e3ff730002001ffbe1042bfae1041ffbd505c46afdf0fec496021001c9231101211133110121135d005d100b9f069a019506;
0xdcdc0301fdfedc270300101100202100101100202700101100323300101100220130ee10ecf4e4100031ecfcecfc101810151903330f1909188c12910c950012;
0xd5058d040000c9000200a50162016201a4015bfe9ffe9efe5bfea448011b011a014801b8fee6fee5feb8fe4c05790187fec5fec6fe88fe78013a01dcfffe0101;
0x5d010515af155f153f151f150f0b4030ecd4ecf42f0031391711ecfc32ecfc101404091c00113f0d1905000402080a10128109950010950118403a0013000800;
0xf005d905f8fe73000200a8fde2dddbe3a692868792cffd2f05cafefbfffe0101fbc80138fe8d9a9a8dfe93012311012b04141504322125232634353632331101;
0xc41000313911393911ecfcecfc101e10151903331b1909030c0f1b0d1e0d8c12911895001295060c1e0f420c0d0d010e0c0d0c010f0210112a4052001d000b00;
0x1dcdc0301fdfedc270302101100202100101100202306062723011300101100323300101100220122593917ed051007ed05100758534b30391239ee10ecf4e4;
0xfefcfe9efe5bfea50162016101a5010202efddfecffa48011b011a014801b8fee6fee5feb8fe4c05d178013a013b01790187fec5fe102321ddf40a013ffffe01;
0x19190a050e161c000911030605040b810d951409951504031500040642030404110503040311060a030708093540b1001c001300d50554050000c9000200008e;
0x137a42405d01011e40b22259391711ed051007ed05100758534b30391239123912ecd4ecf43c2f003139393911391711ecc4fc32ecfc101d040c1c0a143f1104;
0x1f0798069807880688137705750475056802460146023601361e2009260826072606270326022501250025041703160214011500150407030602050105000501;
0xfe7e9016bc0292959592fe89fd83fc0001c801cadc788b4abfd9cd3e7b418d03232634353632331101061415162021112311012b012e03231317011e015d005d;
0x115041f1e0b0a421e1f1f020a070209081e1f1e020b0e020c0d3c407e002700f005a204e3ff870001000085838387eefd4f02ba8dd8d6d50589fd62967f0168;
0x30391711c610eef6ee10ece4f4e4100031393939391211e4ecfcecc4dc1028221419072d0e191b2200071b1f0b0a1e288c119125940095041195189414a11500;
0x263435363233011e3527262221041415011e011f161415062223012e15015d03294f292f291fb65d0101290fb22259391711ed0e1007391711ed0e100758534b;
0x45d02f30e0d9b6d92b191f656376803637c5a405da69f51701cae27b9a87bcad72ec7b80ef6ae7feddfed7e27aa677b3a55fcc734804163233243435012e012f;
0xbd58540ab04b013032ecf42f0031e4fce4d410080540001c0340010481009502060e404a000700d505e9040000faff01000026e4c6abc02d181f7c6e7e8846;
0x100002b05d5faaad505eefdcbeefdef040621112311211521035d09099f097009400910071f02100110001f090013405938371138c0ff080008000100400008;
0x1200bd585410b04b01303939393911ecf432e4100031ecfcecfc101241001c01380a1c08128100098c0e9505000b11020816404b001100d5052905e3ffb200;
0xf0d3d3f075fcd505dffee5fee6fedffecbaec2c3aecbb21100202100101133113536323316141133135d03139f138f131fb65938371138c0ff12001200010040;
0x5000203040600af010403420001011102000100030411030506060302110305060511042740b7000600d505680500001000010024012a01d6fedcfe5cfc8b03;
0x802070006070383037d035a05470447032a030062405d01010850b22259ed051007ed081007ed081007ed05100758534b303932ec2f00313917c4d410070105;
0x760176007a056904690266065600590647054904490245014500480637053c043c023301330038082006250529042902260126002a051a041a02140115060904;
0x5061a0549407b010c00d505a6070000440001002bfae90417fbd505c7fdd2da01d901d3c6fd4a02013301093301215d005d2906970098088006750579047902;
0x20304050608090a0b0c080baf0003060302050a420c000011010c000c020311020708080504110507080711060a0b0b02011a020a0b0a1a03090a1a04090a09;
0xf2405d01010e00b22259ed081007ed0507ed051007ed081007ed051007ed081007ed081007ed05100758534b3039173232ec3c2f00313917ccd4100d00070b01;
0x8020900071d059502960a80057f057c027f027b0a600a67056b026a02590a400a42054d024c0a300a34053e023e0a200a2405280a120a000a000a0205060206;
0x3005330435033a023c0e200e200b250a240923082007200620052104200e100c1908150415031a0e000c0a0a0409000907080008040701060005000506040003;
0x64096408600760066005620461036702660e500c59085602580e400e400c4d0a4409400840084207420642054005450440024a014600460e300c3f0b39093608;
0x9230133010933010933135d005d5b0eaf0e9f04970e8f0b8a098505890488038702860e7f0c7f0c780870087707790679057404770378027b017600770b640a;
0xb080711080a0b0a110946405d010b00d5053b0500003d000100f0fa10052bfaee0412fbee0412fbd505fec2fec5fefe89fecd39013a01e339013a01cc442301;
0xdcc4d4100c0a00060400040205080b0609af0003040205080b420b000011010b000b020311020405050201110204050411030506061107050605080911080a0b;
0x540eb04b5b540db04b540cb04b012259ed051007ed081007ed081007ed051007ed051007ed081007ed081007ed05100758534b30391732ec3c2f0031391711c4;
0x88b0587028002860b770277086b0266085b0558084b0b36083802340b2708270b170819021608080207b840593837113840000c000c000100c0ff0c00bd585b;
0x380a340934073b063a043b033c013400350d200b290927072805260329022801260d10091707190319011609070708030901061b0b96089d0597029002940b85;
0x94019000900d8f0b830884058503880283018000800b780a7f097d08780779067903780a6c096c076906690568046a036a016500650d5f0b580d4f09480d3f0b;
0x1d0385fd7b02f8fc33fd2b02d5fdd5051502da59fe5cfed9000220fed975017301d9810123010923010933010933135d005d400daf0d9f0b9308950697059702;
0x313912e4fce4d410090740001c054004070206af00030242080000110108000802031102040505020111020405041103284094000800d505e7040000fcff0100;
0x84026508510551025108400540024002460830053002300235021402053c405d01010a00b22259ed051007ed081007ed081007ed05100758534b303932ec2f00;
0x239fdf2fc66029afdd505cbf0fdd99b019e01d9041123110133010933035d005d0d0a9f0a700378036801670a4003380137032901260a1f031a011610029302;
0x758534b30ecf4ec2f0031393911e4d4c4dc100a06000442010003080595038100950842020302110807080711031b409b000900d5051f0500005c00010000c7;
0x80b0305090848074702480738072602290718070a020540405938371138c0ff0a000a00010040000a00bd585b540ab04b5409b04b012259ed051007ed0510;
0xb0033dfbc70350fc950473210135211521011521135d005d160b9f0b7f087803770b6f08690366085903550b4f084a03470b3f083903350b2f0b10081a03160b;
0xbd58540cb04b0130ecf4ecfc10003132ccfcdc1008004303010508b100a902b206a9040f405300070014065802f2feb00001000091049aaa6ffb9ad50567fc;
0xf98f140658fef0f0a801b021153311231521135938371138c0ff08000800010040000800bd585b5413b04b5412b04b0159383711384000080008000100c0ff08;
0x2301132259ed051007ed05100758534b30ecf41000313939c42f030100020481009f01420203031a000001011a0214402d000300d505b20242ff000001008ffc;
0x540fb04b0130ecf4ecfc100031ecdc3cfc100804020604430008b100a905b201a90310403c00070014066f02f2fec70001000093066df9d505f8fdaa0802aa01;
0x4030a4018000600d505db05a803d90001008f04068fdef81406efef58fe6f02352311333521110159383711384000080008000100c0ff0800bd585b5410b04b;
0xf000300acfe14041dfeecff0100002d0275fe8b01d3fdd5051f02c948fe48fec91f02bc0301230101230101303932ccf410003139ccdc100705010307810001;
0x4b0030ecf4100031ecdc100401440304b300b40109403100030066068902f004aa000100008f8facfed8fb14043521150130ecd40031c4c41004020001a900b5;
0x1f192740bc0025000a007b042d04e3ff7b00020076018afe6606bafe991a016f010123010959383711384000040004000100c0ff0400bd585b540eb04b5409b0;
0x3911ee10eec610ecf4fcf4e4c42f00313939113232ecd4ccecfc1026451408031f0b08090d180317000c178c11b823b91cba1f8620110eb90617a9000e09170b;
0xa027902285218720871f871e871d85277027502250215020501f501e501d502240214020401f401e401d40273f2230213020301f301e301d306e403039123911;
0x32331614150622015d015d18218020801f801e80217020701f701e70216020601f601e60215020501f501e50214020401f401e40213020301f301e301e27f027;
0x627b663302f0f35abe6554b66097a70201fbfdcbac88bc3fb8b8b9996f81acdfbe02163233013e35070622232634352133363435262223010e35231137013d36;
0x8060c184712120019971bb80f8c1518b9090f0cb903194038001c000b001406a404e3ffba00020000fc2727aa2e2e8b7f12c0bda2c16166aa81fd4c29b4d973;
0xa7e5033311231527262223021011123233013e013632331614150622232634015d01031ea01e801e60b630eec610ecc4f4e4ec2f0031ecf43232ecfc101d461a;
0x1b403f0019007b04e703e3ff71000100001406a86461bcfef8fef8febcfe61645202e7e7cbcbe7e7cb2f02b9b93ab17bccffffcc7bb13a8efda79292a7a79292;
0x2e15015d01051ba01b901b801b101b0f0b4030eef510eef4fe10ecf4e4100031ec32e4fc101a451448000d12071a8c11b817b90411b90a880d860e0488018600;
0x13e012424aa2b2be3cdcde32b2bac3504a25506012d01d6fefd5da54d4e9d50b3c6c6b3509d4ee703163221001011002223010e153736323316141506222301;
0xecc4f4e4ec2f00313232ecf4ecfc101d450b1211470208000417039701b80e8c0805b9140e00b91a194038001c00100014065a04e3ff71000200233a0112010e;
0x92a8a89292a7c7fdb17ccbffffcb7cb13ab8b8a203062223263435363233161401163233121011022223010e3523113311015d01031ea01e801e60b630eec410;
0xbb010cb90501a9150588088609011500244070001b0014007b047f04e3ff7100020000e7e7cbcbe7e7cb15fe6144010801080144016164a8ecf95e02b603a792;
0x13f003f051df01dd01da01d701d3f294030391211eef410ee10ee10e4ecf4e4100031391211c4ecf4ecfc101c450f12024b0008150802151b1c8c0cb812b918;
0xcd0cb2fc7f0407062223012e07003233001011002023010e1537363233011e2115015d01715d091b6f156f026f016f006f0a2c092f082f072c051b3f153f023f;
0x700013001406f80200002f000100009eaeb497c4ddfe430113010a0138012c2aae3434c7be5a5e020eb99a88a502b80701e2fc2901c7fef4fe6bd06362c76ab7;
0x1400bd58540ab04b013039391232ee10ecfc32e42f0031393912c4c43cfcc43cfc10144c0b0f0d08050907000713020abc060e9700870106a9080c0110051c40;
0x333523112311211521011d06222315015d0315a015501540b65938371138c0ff14001400010040001400bd58540eb04b0159383711384000140014000100c0ff;
0xb9030fb916138612091d0c1923404a0028000b007b045a0456fe7100020000abbb4e8fd1032ffc8f636850991406bdaeb0b0b9d1fe2f014d63b0f80233363435;
0x232634015d01032aa02a802a60b63039391211eed5fe10ecc4f4e4ece4c42f00313232ecf4ecc4fc10294520121206470c080019261d1abd0fb909bc27b82326;
0xfcce7cb239b4b5529e5151ac61fafefeb8a59594a5a59495a5a203333517163233121011022223010e013d363233011e35272622210210173632331614150622;
0x10e03000903194034001300140664040000ba00010000aa63623a01040103013a0162635bbfbd2a2cb31e1de9fee2feebdcdcc7c8dcdcc83d02b839b27ccefc;
0x163233013e1133112311150622232634112311015d01011560b23039171211ecc4f4ec3c2f0031ecf432ecfc1014460b08090d4e000802010a970cb8110e8706;
0x408010502bc00b104be060e402b0007000300140679010000c100020000ef64659efd140687fda4be9e9f9e025cfda402c6c175b342b9b9ac957c7cb86404;
0xf000b001406790156fedbff020000e91406a0fb6004b8b8b8b8c123153311231133135d0105097009600950094009100b4030ecfce42f003132ec3cfc100846;
0x601150114011100b403039391211ee10ecf4e4ec100031391239e432ec3cfc101046000c08010d4f0605100810b10cbc00bd0587070cbe0e0007020b1c404400;
0x60511082940bc000a0014069c040000ba000100e9280699619cc0d68cfb6004b8b84c693146b5a3b8c1231533113536323335012b06141133135d0105117011;
0x51007ed04100758534b303917e4ec3c2f00313911c4d432ecfc100b46000801080604010506099700bc03030205084204050511020405041103050606110705;
0xa030b02060905091202a3089705960293088e0589028205770273086702660256082b052902270216080a02045f405d01010c10b22259ed041007ed051007ed;
0x110123010933011133135d00715d1a04f004f703f003f707d607c507b605a703aa0797039a078f068d0589048503890c6003680c40072b062b05280427032807;
0x4005100d4030ec2f0031ecfc100446000801029700b722000300140679010000c1000100ddfd2302acfdf4fde30169fc1406b9c7fdf06b02aefdeb2502b9ba23;
0xf1100071019bc1bb803201d870c15071d06000f1809120626405a0022007b041d070000ba00010000ecf91406b8b8c1231133135d010605f005700560055005;
0x5d010924ff24df24bf24a024a024902470245024301340303917121132ecc43cf4e43c3c2f0031391211ecfcfcfc32ecfc1023461a08181c500f081150060808;
0xf5767c8903ab7a79b03fb9b9a68d7772b9a68f7572b9beaf82c0452904163233013e153311231115062223263411231115062223263411231115163233013e01;
0x8090d4e000802010abc0cb8110e8706010e030009031940360013007b0464040000ba000100007c6267ae600487fda3bf9ba29e0287fda4be9ca19e025cfde2;
0xc6c175b342b9b9ac957c7cb86404163233013e1533112311150622232634112311015d010215cf1560b43039171211ecc4f4e43c2f0031ecf432ecfc1014460b;
0xe4100031ecf4ecfc101845151203510f1209188c12b80cb90012b90613404a0017000b007b047504e3ff71000200ef6465ae600487fda4be9e9f9e025cfda402;
0x22230010110032272634353632331614150622015d011119f019a0127b117f107f0f7f0e7f0d7f0c7b0b7f0a7f097f087f077f067b007b193f234030ee10ecf4;
0x10007b04a40456feba0002003801140113013901c7feedfeecfec8fe9ce9c7c8e8e7c9c9e7df031101effef1f0eefe1201f093acac9395abac94730200101100;
0x41ee01ea01e801e60094030eec410ecc4f4e4e4e4100031ecf43232ecfc101d460208000417470b12111dbc03bd018c0eb80805b9140e00b91a1b403e001c00;
0xbcfe6164aa0a06aefda8a79292a7a79292a73802b17bccffffcc7bb13ab9b97301363233161415062223263401262223021011123233013e1533112311255d01;
0xecfc101d45121200471a08060c181dbc19bd1b8c0fb81518b9090f0cb9031b403e001c000b007b045a0456fe71000200e7e7cbcbe7e7cbeb0161bcfef8fef8fe;
0x9292a72f012311333517163233121011022223010e010622232634353632331614015d01041ee01ea01e801e60094030eec610ecc4f4e4e4e41000313232ecf4;
0xb061440300011007b044a030000ba00010000f6f9aa646144010801080144016164aefde7e7cbcbe7e7cb2f02b8b83ab17ccbffffcb7cb13a7302a79292a8a8;
0x4a0317163233013e153311231115062223012e015d0102139f1350b430391211ccd4c4ecf4e42f003132ecc4fc101246080008060a07bc09b80e87030b110007;
0xb0a421e1f1e530a070209081e1f530b0e020c0d3c40e70027007b04c703e3ff6f00010005056366ae6004b2fdbecb1112b4031c2e1385ba3ab9b9a79c2c491f;
0x10eef5fe10ecf4e4100031393939391211e4ecd4ecc4fc102845221408070e081b5200071b1f0b0a1e288c11b825b90411b91889158614048901860015041f1e;
0x280a280224012000200b0c3b0b3b0a3b093b0c2c0b2c0a2c092e0c1c0b1c0a1c6d405d01012700b22259391711ed0e07391711ed0e100758534b30391712eef5;
0x293f292f27091d041c031b031a03190310030f030e030d030c030b060a06020201000000120d860c860b860a862724212920291f281e28162a152f142f132a0b;
0x89895aa84e8b03163233363435012e012f263435363233011e3527262223061415011e011f161415062223012e1501715d005d1829f029a029902980297f295f;
0x37000100001eac9e8295240f25504b51593535be2323b69c89992a0e21494054542828ae3f04b466cee098ab40ab658c8261c6666cc35ad8f7a5c43f9462;
0x5d010115afb23039391132ecc43cf4ec2f0031393932c43cfcc43cfc1014460e12100800040209080b0a8708bc011100a9030f08050e1940380013009e05f202;
0x130060045804e3ffae000100003e018f6002d29f9a4e89a0fd8fc2fe9e058787a2d5bdbd734b85fe7b01770111333523113526222315013b1614112115211101;
0x32331614113311135d010215cf1560b43039171211ecc4f432e42f003132ecf4ecfc1014460008024e0b08090d0cbc010a8c110e8706010e0300090319403600;
0x504110327401201060060047f0400003d00010000f06366aca0fb7b02a4be9f9f61fda602ba01c8c175b143b8b8ad957c7cb8ae262223010e35231133113536;
0x1007ed081007ed081007ed05100758534b303932ec2f00313917c4d41007000405010203050605bf000302420600001101060006020311020405050201110204;
0x7b026a02488e405938371138c0ff07000700010040000700bd585b5415b04b5414b04b0159383711384000070007000100c0ff0700bd58540ab04b012259ed05;
0x5608400648054604490349014600460830043a033a0135003508200429032901260026041a031a0115001504090309010600060802a4029102800286027f02;
0x6a705a8069705980498039a029701960096068605890489038901850085067a0575047b037b0174007508600668056704690369016600660850045903590156;
0xa5504090a0905065505494001020c006004350600005600010000a0fbac0354fc6004fa5cfec35e015e01c33d230133010933135d005d3e08ff08df08c008b0;
0x100d00070b01020304050608090a0b0c080bbf0003060302050a420c000011010c000c020311020708080504110507080711060a0b0b020155020a0b0a550309;
0x5412b04b5b5411b04b540ab04b012259ed081007ed0507ed051007ed081007ed051007ed081007ed081007ed05100758534b3039173232ec3c2f00313917ccd4;
0x5938371138c0ff0d000d00010040000d00bd585b5410b04b5b540db04b540cb04b01593837113840000d000d000100c0ff0d00bd585b540bb04b5b5413b04b5b;
0x902051d05cf03c702ce05bc02bc0a94059802990287057f0579027f02790a66056e026e0a500a55055b025b0a400a46054902490a350a22051602160205ff40;
0x300c390836043603390c230b210a2409270825072206220525042103270223012500250c150b14091b081b051a0416031902150c050b04090b080a050b040603;
0x6a066a056a0465036a0265016400630b550a540953085007520652055104500256015600560e400e400b440a440944084007400640054204400446034802460e;
0x9907980698059b049c03930294019700970e8f058802870c7d0b760a7b097f09790878077f077a067f067a057d0478037d0279017500750e6f0c670b61096e07;
0xb230133011b33011b33135d005d7905ca04cc03c302c40ebf09b805bb04bd03b102b50eaf0ca408ab07a906a905ab04ab03a402a401a600a60e9f0c962f4008;
0x405110406070704031104060706110546405a010b006004790400003b0001006afc9603a0fb6a0396fc6a0396fc6004d9f2f1d9dbfeb8e5e6d9e5e6b8562301;
0x31391711c4d4c4d4100c0608020008040104070a0205bf0008040104070a4207080811090708070a0b110a0001010a09110a000100110b0102021103010201;
0x5b5411b04b5b5410b04b5b540fb04b540ab04b012259ed051007ed081007ed081007ed051007ed051007ed081007ed081007ed05100758534b30391732ec3c2f;
0x58075704550a31043d0a260a15041a0a04040a98405938371138c0ff0c000c00010040000c00bd585414b04b01593837113840000c000c000100c0ff0c00bd58;
0xd200b2a0925052603290b1a09150515031a0b0a09050504030a1c0aa00aa307a504af04a901a60a900a920797049f04990a82048d0a740776047a01760a660a;
0xdcf0db007a401ab0794019b0d7f01780d6f0d500b590956085607590656055703590259015600590d400b4a0945054603490d300b390936073405370339013a;
0x56fe3d0001008f0171fe16024a0248feb801c1fddffd600429012901d972feb301d9bafebafed9aa016bfe640401093301092301092302095d005d2f0dff0ddf;
0xe10bc0b0ebd0387050b0010090b0d420a0b0b110c0a0b0a0d0e110d0f00000d0c110d0f000f110e0f00000a0b110a0f0011090208074340a2010f0060047f04;
0x22593217ed0507ed081007ed051007ed081007ed081007ed05100758534b30391239113911ecf432e4100031391711c4c4d410100b0f040f08000306090a0c0d;
0x160d03090608050006f0405938371138c0ff10001000010040001000bd585414b04b0159383711384000100010000100c0ff1000bd585b5408b04b540ab04b01;
0x224012400270f1a0e1a0c140b140a1705100410021501170f0b0e0b0c050b06090a000a120d930d800d870a6a0a5a095a0d4e0a4f0a490d350d230d100d170a;
0x8400740064005400440034002400140004111300f390e390d380c360b360a380530043002350135003711200f2a0e2a0d270c240b240a250928082905200420;
0x890f780e78087b11600f690e690a680266016611500f590e590c550b550a57095708560755065605500450035502510151005411400f490e490d470a450942;
0x937c944e93023301093301013f36323335012b010e055d005d6511ff11df11cf11b00fab0eab0ca40ba40f9a0e9a0c950b9509990f890e890d890c850b85098a;
0x1030805a903bc00a90842070807110302030211081a40b40009006004db030000580001006c0394fc4e045486489a7ac868c35e015e01c33bfe2133544c6c;
0xb04b015938371138c0ff0a000a00010040000a00bd585b540cb04b540bb04b012259ed051007ed05100758534b30ecf4ec2f0031393911c432c4dc100a060104;
0x843054004400345024001400b30083903360b20082b081b03180b0f080b05074902470226021602054240593837113840000a000a000100c0ff0a00bd585413;
0x101002503a893dbfca8600465fdb4027dfcb4024cfd6a0371210135211521011521135d005d1b0baf0b800b7f0862056004600366026001600b5f08590357;
0x25050f0a43192000140213050a1d00191624050a090c25b113a91509c001a90009a90b00032120050b1d15101a0925060b150f1934408200240014061704b2fe;
0x250025000100c0ff2500bd58540cb04b0130393912113912113939113912391712ee10ecf4c4ecfc1000313939121139391211391211393932c43cfcc43cd410;
0x443ef9a96b8f3d3d8e6ca9f93e1704331614011d011e070614011d06222315013b3634013d36323335012b2634013d26222315055d012600b259383711384000;
0xfc100031ecd4100402050004b10001b7120003001d06ae011dfe04010100588df89c8e1b198e9df88d588f93ddf095738f7497efdd9490be8d565a6f6e5b568d;
0x191c25b111a90f1bc023a9001ba91900032005040f19150b1b080f0c161b251f36409e00240014061704b2fe0001010000000800f81d06aaae011123110130cc;
0x391139391211391712ee10ecf4c4ecfc100031393912113939121139121139391211c43cfc32c43cd41025040b001043151f1a00041223151a080004010f151a;
0x363233055d012600b259383711384000250025000100c0ff2500bd58540eb04b015938371138c0ff25002500010040002500bd58540ab04b0130391211393911;
0x1b8e9cf88f56be3ff9a76c8e3e3e8e6ca7f93f468c555a6f6f5a558c460001012b0614011d06222315013b1614011d16323335012b2634013d012e373634013d;
0x1211c010ecd4fcd4100031c4d4101e0f001e0c9c131b9c0413000c1b1001104023001d003103db05d301d900010094ddef97748f7395f0dd938f578ef89d8e19;
0x3103a9565e9b0e08050a936e61b36962ac585e9b0f07050b926e61b369db05363233161716171617323336363507062223262726272627222306061501303939;
0x21000e000b006d0768050000100003007501bc000301070000000000240027024e07680500001000ffff004c3e050302043c454fb2534d3e050302043b444fb2;
0x1d1e1c208e090d951e0915c103090d0f1b0c42210f21111f210f1120210f0f0c0e110c210f21110d1b1c1c111d1b1c111e1b1c110e1b1c1b0c0d110c5440cb00;
0x303939391211eed410eed6e63c2f0031393912113939113912113911391132eed41032ecd4c4d41022211c1256060f1c1856001b060c180e06120d211f20181c;
0x790e7b0d750e690d6623501b080f07030c9b0c730c1a20405d01012320b22259ed081007ed0507ed0507ed051007ed051007ed081007ed0507ed05100758534b;
0x58fe2102f0fe98593f3f5857403f59540323032103230107061415163233363435012e012101033632331614150622232634015d005d0c2380217620761d791c;
0x26002702f005270575fe7300ffff0081fe7f018bfa29764672a1a0734973294e0319fdf3fe58583f4157593f5a06d5885ffd88d214023c3fa172739f3e3d;
0xffff7501fe000501070000000000310027025e0733050000c900ffff75019e000401070000000000280027026b078b040000c900ffff00002d01dd0007000000;
0x4400270266062d04e3ff7b00ffff7501ee000301070000000000380027024e072905e3ffb200ffff750127010301070000000000320027024e07d905e3ff7300;
0x5200d7000700000000004400270266062d04e3ff7b00ffff0000520043000700000000004400270266062d04e3ff7b00ffff000052008d00070000000000;
0x270206072d04e3ff7b00ffff00005200d8000700000000004400270237062d04e3ff7b00ffff000052008e000700000000004400270210062d04e3ff7b00ffff;
0x8b008d000700000000004800270266067f04e3ff7100ffff00008f00dd00070000000000460027027b04e70375fe7100ffff00005200dc000700000000004400;
0x10067f04e3ff7100ffff00008b00d7000700000000004800270266067f04e3ff7100ffff00008b0043000700000000004800270266067f04e3ff7100ffff0000;
0x4300070000000000d60027026606a6010000c7ffffff00001dff8d00070000000000d600270266066f0200009000ffff00008b008e0007000000000048002702;
0x64040000ba00ffff00001dff8e00070000000000d6002702100646020000f4ffffff00001dffd700070000000000d600270266065c020000deffffff00001dff;
0x700000000005200270266067504e3ff7100ffff000073008d000700000000005200270266067504e3ff7100ffff00009800d800070000000000510027023706;
0xe3ff7100ffff000073008e000700000000005200270210067504e3ff7100ffff00007300d7000700000000005200270266067504e3ff7100ffff000073004300;
0x5800270266065804e3ffae00ffff00007b008d000700000000005800270266065804e3ffae00ffff00007300d8000700000000005200270237067504;
0x3900010000007b008e000700000000005800270210065804e3ffae00ffff00007b00d7000700000000005800270266065804e3ffae00ffff00007b0043000700;
0xb0a8012135211123112115211133013032ec3cd4f4e4100031ec3cfcec3cd4100c0007590957010559030cc2068100020ab90408144027000b00d505c7033bff;
0xf4100031ecfcecdc101b185a035b125a091b910cc300c415c306114020001a000b00f0053d037503c300020000995d04a3fb995cfed5056f0191feb091fe6f01;
0x2e3181704f4f6d6d4f506f6f05b8b48786b92e2e2b76404f6f6e50506e6e50000236343526222306141516161716322726343536323316141506220130ecfcec;
0x131e0900151c228c16b81c1f1db90b1614b90c880f86100b880886070b010c0f001416132b4051002100060098052304c7feac00020000ba8687b4b78442722d;
0x110706061537363603272626150116141506061125303912113912113912eef510eef4fec410ecc43cf4e41000313232ec3c3cd43cd4ecdc1022191204070f0b;
0x7231eaa272a05a0fc032a29aca103e2b9b8e21258038389490166f10901f7fef1664d89414889460144884a1002a4a493a60216161333113700101100261123;
0x1c070b090d000ea00c1091199400a0040c0814a90a12008601081607214060001b00f00562040000810001002104e1fe1f01163201020101013301142001e4fe;
0x202360136b4593837113840001c001c000100c0ff1c00bd58540cb04b0130393911ee1032ee3cd410ece4f432ec2f0031c4d4c43cfccccc3cdc101c11150f13;
0xaa2ffe8fd7d49b2929b6b405973de8d6c7c7ec1ffc2d0279fe870174943d884c4e0416323336103533352311333521152111211521011d062223012e15015d00;
0x4301700062f3f23913cc50cc61023c526c62a0c8a0d268a270d0436301d1700062a302f3c4091003e000b00f005a2033dff5c000200001ff30501ee8fd101aa;
0x3939391711ee10ee10eee610ece4f4c4100031393917113912113911ee10ecd4ece4d4c4e4ecdc103f3357032226391a220c570920572d3957130336092d1d13;
0x1415062223012e1513263435013e17161415010e015938371138c0ff3f003f00010040003f00bd585b540eb04b5b540cb04b5b540bb04b540ab04b0130391211;
0x5d5c83d30e1ace6c61388f53cc8f3e3ffa8b3e3f7b01163233363435012e37363435012e012f3435363233011e3527262223061415011e07061415011e171617;
0x2727a41d1da88e406d34358c5a659a77080f735a47502727a49302884b2e5b2d87854c2e5a2ea8039949a6c83b3b5b5d80d619dd71663a9457589a49adcc393e;
0x330126222306141516323336340130ecd4100031ecd4100c005c060c03c709b712000b0021048503d10133010100001d9f8245702c318f5b6699780e7b664c54;
0x32c410003139ecdcfcd4d4100e0b015d03055d07000e02068100c1040208124025000d00d50539043bff9e00010000acac7d7cabab7cfa02ac7d7dacab7c7ead;
0x272d30409a002f001406ac04e3ffba00010000e8beb8dd114e03e1f91f0666f9d5050401ebd78ebe8dc00179022434352626112311231123112101303911ecf4;
0x123912393911ee10eed4eec610ccfcc4fc1030460010082d161024081d0608272408092721201d0d090c2e8c139703b92a13b91a1786162a0400200d06040c21;
0x213a203a20191f190d192604220c210a200d1f0a0d0a0c0a0b0a070a060a070d8a0c8a280f270f070f060f050f4040303917391712eed5fe10eefee42f003139;
0x12e37363435012e012f263435363233011e3527262223061415011e011f161415010e171632333634135d015d1820a607a506a5206a1f6a22492149204d1f4d;
0x1ea41819b7ac648e6a252a512f607308e0e8dbc87104bb888271830897a757605c653b7874418c50498840d3e160a639413aa89703dbd0daefba231115062223;
0xc90cc818c900ca390cca434a39c93048c9323f434245364060004c0038002f001700cd05e50600001b0104000093fb838b70671dac7f5b873b373e543f5b5f1d;
0x1032ed10edfef6ee2f0031391712391239391132ee10eec4fdfe10ecfce4dc104d2a5f1e09065e4b1e09125e3c4360364b60314936393f3c4231043033454824;
0x34353632331123132436371234350226272422230406070214151216170432272626272634353636373632331616171614150606070622013039391239eed6ee;
0x6d6d6c6c6d6df9fe9898f9fe6d6d6c6c6d6d07019884e35e5c5e5d5d5ee38483e25e5e60605e5ee2830004112311232326262723171716160706141516322726;
0x5016d6d6e6e6d6dfbfe989afafe6d6d6e675e5e5de38583e25d5e5f5f5e5ee38182e55e5e5e66059b4236493b81ac892e43186069aeb06658576e7b7b7d0701;
0x3430cb3124ca41cc3a3ecb3d2640430049002f001700cd05e50600001b01030044039cfe3360d1df494d081170567977673f4c4b3eecfe62fe6e6d6d06019a98;
0x60702141512161704320130eed6eefd10eed6eefdfef6ee2f0031ee1032edfe10ecfcccdc104a1206091e5e4406092a5e303d4461370cc924c800c918ca47cc;
0x4163233363435262223060615373632331614150622232626151726262726343536363736323316161716141506060706221724363712343502262724222304;
0x8849d8fbfbd8468943427a409baba795428242a7e35e5c5e5d5d5ee38483e25e5e60605e5ee2839807016d6d6c6c6d6df9fe9898f9fe6d6d6c6c6d6d07019800;
0xf2d1d0f41c1d7f221fae9f9daf202181f55e5e5de38583e25d5e5f5f5e5ee38182e55e5e5e676e6d6d06019a9805016d6d6e6e6d6dfbfe989afafe6d6d6ecd05;
0x3911ecd4ecd4e4fce4d41015116313620f630d0b62090362050901158100020dc90603090e12040a1007060121403e0014000c00d5054606930327010200001c;
0x1d1fee401befd000100ffd505c972cb7172cb37c371aaa4ae4a04352311231123152311231103230311231133131301303911c43c3cd43217ec3c3cf4100031;
0x100c0ff0400bd585b540eb04b5409b04b0030ecf4100031ecd4100401440304b300b40209403100030066065203ee0473010100005ee4011cfe5e42021cfe2f;
0x31ecd4fcdc100804640500640108cd0004ce02060e40920007000300100629034605d70002000088fe660699bafec78b02230133015938371138400004000400;
0x100c0ff0800bd585b5417b04b5b540eb04b5b540db04b540cb04b015938371138c0ff08000800010040000800bd585b540db04b540ab04b003032ec3cfc1000;
0x231533015d080670057002700170066005600260016011405938371138c0ff08000800010040000800bd585b5419b04b540fb04b015938371138400008000800;
0x908020304080c0d0e1214081006129c0a0ecf0c069c0004cf02030a0c0d22403e001300dd04db052700d900010000cacaca1006cbcb79fecbcb5e0223153325;
0x7b02c348fe2f01ae7d00010403d921372135213727012115210721152107170121133039121139ec3cfe10ec3cfc32cc3cd4100031391732c43cdc1014000f05;
0xf0e110c0e0f110d0e0f0f11100e0f0e11113940870013000f00d5054807000008000200f0aad366c7feaaf0a8d5663b01a20387fdc3b601d5feae7dfefefafc;
0xee10ececf4c4ecec3c2f003139171211c4c4d432ec3cd4d410140e0a121c02060804000a0e050c0d0f1011090dad0395071181009510950111950b039505420e;
0x211121152111211521112115015d0915bf15a01590119610850c8611771077116713405d01011580b22259ed051007ed051007ed0507ed05100758534b30ee10;
0x130009001706e505baff660003001003f0fc9ed50581fe7f01aae3fdaa46feaad505cb01b6fe8b7102cda0f0fd3dfcf80239fdc7021bfd350711210117012303;
0x171910332319071f0710291d0400010a13231e201017142a2c2b2c8c26911a950d2695041a1e262a040d142026290d0400010a132c2b0d1a1f1d3c409e002b00;
0x65156a21551957155a00572a4030393912113912391712391239391211c010c010ee10ecf4e4100031391139391211393912391739391211c0ecfcecfc102c10;
0x1716322100103502260717161411002223012e27263411003233011e01095d015d0b287a1c761373007c286a1c641364006a1356005913460921751c76157b21;
0x4340b2fc580467a25bdd80c6fe88fe504eaa66a257dd823b0179014f4e862727fdfedc5fa13d79270101dc5fa13e33fdb6042707272622210010151216071737;
0x1b2d1d40ff002f0017000b00ee03cf05dd00dd00030058bf4b4b5bfe9ffe9ef6fe67c659bf4b4da5016201a00801669e44bc70e5feb8fe4340b8b8701a014801;
0x40503050205be4030391211391239171211c010c4d4c4d41000313939393911c4d4c4d410301e122a06121824000c30210f1b1521270f150418240003210915;
0x42403240224161a151a141a131f121f111f101a0f1a0e1a0a1509150815071006100510041503150215140a130f120f110f100a0a0509050805070006000500;
0x153a143a133f123f113f103a0f3a0e3a0a3509350835073006300530043503350235162a152a142a132f122f112f102a0f2a0e2a0a2409240824072006200520;
0x3233011e015d015d0829b428b027b026b022b021b020b01fb456164a154a144a134f124f114f104a0f4a0e4a0a4509450845074006400540044503450245163a;
0x865259767f66558531c48552597680655486319303262223061415163233013e17163233363435262223010e17363233161415062223012e0706222326343536;
0x405db050000d90002000077d6afa7e1838a8a7ed8afa6df7f87168886656a8458583787866569875a582f02955e86a7bc86619e4448995f86a7ba885e9d4690;
0x11213521112311211521110130ec3cfcec3cd4ec2f003132ec3cfc32ec3cd41010060a15080c17000415020d0e9c0c0109d0009c0307d00518402e000f000b00;
0x401009c010304039c022e4054000a000600a804db050000d9000200aaa6fb8301aa83017dfeaa7dfe0405fefa0205d3fd2d02d3fda8d3fd2d02ae0321152101;
0x1007ed081007ed040758534b303917ecf4ec2f0031393232ec3cfc100b2304072400020801099c07a706d1030500010204054205069c0005060501029c010304;
0xa000600a804db050000d900020000aa02fc6f01aa7001b2eefeebfef803fefa0205fefa0205fefac00340fcdb05211521010135011502092259ed041007ed08;
0xecf4ec2f00313932ec3c3cfc100b2300040924020706089c07a701d1040500020305064201020206059c060102019c000304049c0503040306009c062f405600;
0x10000aaaac7fd1201b290feaa91feb0f803fefa4101c103fefa0205d935211501013501150135132259ed081007ed041007ed041007ed08100758534b303917;
0x30f1605030e090c02810d100914d30b120617d30004090b0f42080d0d020e080d080f10020f1116160f0e020f11161102104640c6001800d505c30400005200;
0x7ed05100758534b3039121132ec3cd432ec3cd432e42f0031391711393912391712ec32ecfcec32ec3cd41019030765050a660d1c0165001366110003101215;
0xe371228112810290e270d270c27050fb50fa00fa60f900f86284059383711384000190019000100c0ff1900bd58540cb04b012259ed051007ed081007ed0810;
0x79017b01bec3fe0801b4fe54a00160fec963fe8d04211507211521013301093301213521273521352111231121015d005d0e11a910aa0ea50da612880c871039;
0x1c87060f1201030c09030616031f191325404d0020006004e50456feae00010000339b7bb6fdbc0244fd4a027b9b337bc70139fec7019f0154b5fe0801c2febf;
0x14113311135d010322cf2260221fb63039171211391711c4dcec3cf432e4e41000313912c4ecf432ecfc1021460008021f4e0b080912091921bd00bc010a8c16;
0x8d02a8a8949148fd0a0656fe2a8f666291320f52452349291c20092523b89594878ab8ae1127262223010e27262223010e153736323316141133113536323316;
0xccd4102a1824121e0003240c2ad5150f1b210f061527061b092127001940620029001d002d05c103e7ff6800020000d7fd4e4e4f4f504e1617940c0b393ca2fc;
0x38c0ff2a002a00010040002a00bd585b5414b04b5b5410b04b5b540eb04b5b540bb04b540cb04b0130391211391211ce10ce10ccdccce410003139113939ccdc;
0xd5dffed6b46590302424903748490f0ff402123233161415022223263407163233123435262223001011123233363435262223062223263435013e0159383711;
0xb00c1053b0577fe190001000004017b74cffefe7d74e05b0101c6a3d846feb1fef9fecafe623e1f2c7483814ba3576d028d6d50568d6d4f570b8265a2ddcb98;
0xa7a057005750476037003730a5a05500556035130403039391211ce10ccd4c41000313917c4d4100c08060600010304050a0c0700020705020c040a14405d00;
0xfdc1c10549fdd502defaef034afda00241fcea04370109352115210109211521135d015d0b06800580038f028f0b74097b06700570037f027f095a0c05800380;
0x49c23112111231121133032ececfc100031ecd4ecd4100800670501670308af00d604d702060f401e000700c105710577fe9c00010000e302210395c004fd33;
0x4020b00011224061718191a1b1e0c18d50fd822d900161a0fda0800031e1f15020b3140cb0023002f04aa04f0ffe1ff01000083f97d06b6f8c105ef0afdf0d5;
0xc0ff2400bd58540ab04b01303939391711ee103232ecf4e43c2f0031391712113917113939123912113912ecd4d4d410241f23056812230c121f2205151623;
0x9150d140e130f120f110f100f0f0f0e0f0d0f0c0f0b0f0a0f090f080f070f060f050f040f030d020d01090009021f181e185640593837113840002400240001;
0x3211337363435262223010e0737363233161415010e0323015d005d282311191c181c1717161115161417031602160111001123091a08190d180f1808170b16;
0x902e646608088d0505313a165c4a19fe91037903a58f1ca0093c3629c3b5c2bafe50221579761a371e1e252e11372f0f0f69b687042133013e23070622231323;
0x30e4de10e4dcecfc100031ecfcecdc102604691d6a17690a26b107dc1a13db0d1a00db201440260025000e06fa038dfe2f000100007da6454091036ffc7801a1;
0xc4bd1104040e6b1009060c382a37406450cabe0c01020e6a37011616171632333634352622230202070603222326262726222306141516323312123736133201;
0x33405f0029001e000300f0053b03d501730003000053121c1d3f38415362fe21fe6ec195fd480f23263f364154bc010302396cb002fafe0a0a0f30213d44654f;
0x391211c0c03232ecfcccecdc102a0d6b22186c046b06112801020622101f0d18002a911ce00add15de18df190a05dd25e10010dd1f00e3021018121f04250728;
0x1506220516323336363507062223263435333336343526222306063523110121152113303939113912391211ee10eed6edeec410ecf4fce4f410003139121139;
0xb01c1c7f22225b5b048a877187443f7040feb8027b5002826852627ea1ecfeb3b745914944883e7575b6bcbf98805d902c95ae0250fdb0028b35353632331614;
0x3139121139ecfcecdc101c0d6b136c076b19010d13001c9104dd10e00add16e100e30219402e001b000f000300f0056403d501600003001d72904d404f43f0;
0xdd1b047b50027c7d69687f7e69b3d0d0b3b3ceceb3580150fdb0028b2634353632331614150622173634352622230614151632012115211330ecfcecf4ecf410;
0x1c0c6d0f1c1c066d02000102061f0c0f131620110110e50003030f129119e509224040001f00e705cf0500004e000100a08985a0a08588a173ddbfbedcdbbfbf;
0xcf05070214110020210010350226213521151712141500222300343512363521152530ecf43217ec3c2f0031391211391211391211c0c0ececd4ececd4102016;
0x8dd8fec2cbfe77fe8a013e01b82a018bb2b261b4fecaefddfe2201f0ca4c0161b2b2b2a18e81012f0131017f01919e3f01a8fdb2c7f7fed8d8f8fec6b1a8fd;
0x2637343f258c191fb80a3107bb0eb9032aba2d862e191cb9123a0ea900128815861625a934000d0e3d252d27434003013e00330006007b046f07e3ff7b000300;
0x1032eec410ecf43cfce4c43cf432e4c4100031391211391211391139391211c4ecd43cfcd4ccecfc103f452208372d0f08263d0d0800150f26071c3725000f06;
0x40b040a04090408030852b8530502f502e502d502c502b5030402f402e402d402c402b4030302f302e302d302c302b3081403039121139113911ee10eef410ee;
0x2f602e602d602c600f6f0e6f0d6f066f006f2f502e502d502c502f402e402d402c402f302e302d302c30050f3f0e3f0d3f063f003f1d40f040e040e040d040c0;
0x232634352133363435262223010e27262223010e1537363233011e21011d003233013e0307062223012e015d01715d1d2f802e802d802c802f702e702d702c70;
0x6554b66097a70201fbfdd2bd8fd8494df8a76ad06464c868b7cc0cb2fc0801e284d44a440eb99989a501b606013d363233161415062203163233013e35070622;
0xa2ff4800030029b4d973627b6618fe602727aa2e2e8b7f12c0bda8bb787877792c2aae3535c8bf5afaddfe5e5a30019eaeb4979402b9996f81acdfefd58e5abe;
0x1d1f07100400010a13231e201017142a2c2b2c8c26b81ab90d26b9041a1e262a040d142026290d0400010a131a1d1f262c2b3c40e4002b0013000900bc049c04;
0x3f0128704030391211393911391712391239391211c010c010ee10ecf4e410003139113939121139391239171211c032ecf432ecfc102c451712102951231207;
0x9b267b257f247f237f227f217b207f1f7f1e7f1d7f1c7f1b7f1a7b157a0d7b0c7f0b7f0a7f097f087f077f067f057f047b007f2166156a20561d551c5614592d;
0x62223012e27263435363233011e01095d015d1124ad18a2249a18951e89287a1c761374007a286a1c6513660069285a1d5513560059262df02da019a8259519;
0x60f0eefe3635925f8b439f5df1110136367d1413a9973e672a5c14ac9341672919fe8903270727262223001015011e07173717163233001035012e0717161415;
0x2f40860024002000d505ac03e3ff8f0002004ea83334c7feedfe78c64db34fa834333801140177c54d972e6e48d3eb29299a754fc8e8282ab0fd2103608b3fa1;
0x391211391211391211ecd4ecfcd4ecdc1025161c090f26211c22011c0009221a00010509161922062581238c13950c238321000c880f86100019060402051a20;
0x7740674057404740b4059383711384000250025000100c0ff2500bd585b5413b04b5b5412b04b5410b04b01303917393912eef410cdfe10ecf4e41000313912;
0x2630585949e0b867c05e60b44e6d83333a5a5a37bef4013335231335013e37013e013f363435262223010e1537363233161415010e010f06141533015d051c76;
0x7080481028300070f40620009000300d5050002000035010200fe0e01363c1519352f5656894c9fc23839bc43466e59315e35585782659c4404cacac4060708;
0xa00bd585b5413b04b5b5410b04b540fb04b015938371138c0ff0a000a00010040000a00bd58540bb04b0130ccfcf42f0031393932ec3cfc100a000105030004;
0x5e03db051f01d9000100009bfe65018f022bfafed70414a215cbcbcb0002133313112311333523015d030b500b200b00b6593837113840000a000a000100c0ff;
0x90a18402a000a007d061905d7ff3d000100009501c1fd5e03a6fba80205d921112311211330ecc4d4100031ecd4dc1006000117030600029c040a4017000500;
0x11b01197dc1fe42aefd73bd5c0401252707012301231533013039171211c4ccd41000313917ccd4100b080108000304050607090a0b000204020b05060708;
0x16e6128a1308a90a1a011e070a130c1942191e1e11070408090a0b191e19110c0f020d0e40408a0023001406020556fe1f0001003bfd62502d7303baf9607d06;
0x5100758534b303939121139391232ee10eef6ee10ecf4ecfcc432c41000313917ccd4102412000a0708090b0c191a1b1d1e24081c0f9721a904e6008a010fa9;
0x231337363233011e35272622230602032115210307062223012e150159383711384000240024000100c0ff2400bd58540cb04b012259391711ed0510073217ed;
0x2121a61615d3e3fe85fd8fc9fe847a1c1da4f005643597c6243f1701f889226d612f61342f643ababc3a7fc3fe1f013c1972602c50260205163233013e132135;
0x32c43cd4103c0f2d001e3c139c0c1b9c04229c39319c2a1e0c1b100113222d002a391f2e1f403f003b001d00f403db051001d900020012c3b74a018fad02a689;
0x27262722230606151336323316171617161732333636350706222326272627262722230606150130393912113939121139391211c0ecd4fcdcecd4ecd4100031;
0xac585e9b0f06070a926e61b36967a9565e9b0f06050b936e61b36962ac585e9b0f06070a926e61b369db05363233161716171617323336363507062223262726;
0xfaff02004b3d060302043b454eb2534c3d060203043b454fb2da014b3d060202053b454eb3544c3d060203043b454eb36f02a9565e9b0f07050a936e61b36962;
0x7f006e0706760579027f02780170026d01631440303911ccc42f0031391711ccd4100706050705000102030405030103000f40380006000200c10560050000;
0xe8020405050201e802040504e803494086000d000600230425048d009e0002003ffa0f05c4fbee049afa4302e0effd44035efeac02210133012101095d015d02;
0xd43cfcfc100e6e0c6f070a056f00030702050c090ea60007e7040b0209420d0707e8080d070d090ae8090b0c0c0908e8090b0c0be80a060000e8010600060203;
0x11513350115010115012259ed041007ed081007ed081007ed041007ed041007ed081007ed081007ed04100758534b30393932ec3cf4100031391211391132ec;
0xc0de80c494086000d000600230448048d00c10002000052a201bff4fef4febfa20152a201bff4fef4febf23042bfe2d01d3fe232bfe2d01d3fe250435011501;
0x1070a6f08000501080c0ea60007e7030a050c420001010504e805000100e806020303e8040203020506e8050708080c0be80c070807e80d090a0ae80b090a09;
0x2259ed081007ed041007ed041007ed081007ed081007ed041007ed041007ed08100758534b30393932ec3cf41000313912113912ec3cd4fc3cfc100e7000036f;
0x14070000ec0003000c010c01bf5efe525efebf0c010c01bf5efe525efe2304d3fe2d012bfed501b201d3fe2d012bfed501c10101350115012501013501150113;
0xd5a902d4d49603231533252315332523153325303232ec3c3c2f0031ecd4ecd4fcd4100c08190901190005190402060a83000408114023000b0007000300fe00;
0x7501bc000501070000000000240027025e07680500001000ffff7501bc000601070000000000240027026b07680500001000ffff00fefefefefefed5d5adfad5;
0x6150a10121809ad0395071881009501110395051f403b0019001000d5050c08000073000200750127010501070000000000320027025e07d905e3ff7300ffff;
0x7332100101100202317210010110020211521112115211121150130ee1032ecf432ecec2f0031393939391232ecd4c4c4d4ecfc101a100d1915080400111c02;
0xc307e3ff71000300dffedffee0fee1feaa7c016d0170017c01aae3fdaa46feaad5058141014001c0febffe8167b101bf0141fe4ffed7fbf80239fdc7021afdfa;
0xecfc1034451c122b510912314b0708000f093122160006348c1319b81f2522bb08b903281316b90c2e08a9000c880f8610000807314084003300270006007b04;
0x6f05093f083f073f063f003f0735f035d035cf359f3570355f353f254030391211eef410ee1032eec41032ece4c43cf432e4100031391239391211c4ecf4fcf4;
0x35363233161415062225003233013e17163233001011002223010e27262223010e1537363233011e21150507062223012e015d01715d05096f086f076f066f00;
0x34c7be5a359eaeb3989402acac9395abac94b0fa0801e28fe84e42d38cf11101effef18cd14751f2a06ad06462c86ab7cc0cb2fc48030eb99989a4020a072634;
0x211130ecfc100031c62f000104e900a902b61000030079020004e9010000010000e9c7c8e8e7c9c9e787ddfe706b6c6f38011401130139016d6e6d6e2c2aae34;
0xb000500d5056d03e903ae00020090790200f800082115211130ecd4100031cc2f00010400a902b50f00030079020008e901000001000090790200fc00042115;
0x81a4d39a015281a4d381010333133523050333133523013032ec3cf4100031ced4fe10ccd4ccfcdc100c0119000704030719060a090c8103099e000613402700;
0x100031ced4eedc10ccd4ecdc100c0019010403010619070a090c8100069e0309134027000b000500d5056d03e903ae000200c1fe3f01adadc1fe3f01ade90352;
0x30681039e000b4018000500d505d301e903ae0001004001c0feacac4001c0feacd5055281a4d39a015281a4d300011323031533251323031533013032ec3cf4;
0x100600710104030681009e030b4018000500d505d701fe03b200010000c1fe3f01ade9035281a4d3810103331335230130ecf4100031ccd4fcdc100601190004;
0x5090c0a049c080204ea0602ea00144029000b00070003006f04db059600d9000300003f01c1fe98d5055281a4d3040113230315330130ecf4100031ccd4ecdc;
0x23fe06000200aa4102f512fef66f04fefa0205fafdf6f6f6f6df0221152101231533112315330130ee10ee10c4fcc4d4100031c43cfc3cd4dc100c0800047201;
0x81050cfe0cfef4017ffe810181017ffefa0107093039123911ccd41000313917ccd410080705060001020304060806040800060211402200070003007506ee03;
0x730003010700000000003c0027024e07e7040000fcffffff00005e008e000700000000005c00270210067f0456fe3d00ffff2d04d3fbdbfb25043903c7fccffc;
0x2230133012259ed051007ed05100758534b30e4e4100031ccd4100403010491008c02420300030f020102010f0013402b000300f005cd02e3ff89fe01007501;
0x3021eb1db927ec0feb13b92d1d010f13030a0b142d120c1d21021c27001e2d04151b0903494083002f002300b204bc0452005e00020000f3f9f005a05cfca02d;
0x3917121139121139391239391211393912391712ece4f4ece4dc103018731c282a7406730228240203010a0b240309181c131d2a1b151c3014242a0412000c1e;
0x3233363617372737363435262637270727262223060627071707061415161607173701303917123939113939121139391239171211c010ece4f4ece4d4100031;
0x3f3e773bce73d1e1039c71719d9e70729b5c753c407437cf73cf26262525cf71cf3d783a3d743bcf72d128262425ce72cf7b0336323316141506222326341316;
0xe8020405050201e802040504e803254047000600230473028d009e000100009d9c72709a9a707cfe242527cf73ce3874403a763ece73cf25252628cf71cf3973;
0x7302350115010115012259ed041007ed081007ed081007ed040758534b3039ecf41000313932ecfc10076e056f00030207a600e70402420600e8010600060203;
0xa600e70305420001010504e805000100e806020303e8040203020506e805264049000600230496028d00c10001000052a201bff4fef4febf23042bfe2d01d3fe;
0x5efe525efe2304d3fe2d012bfed501c1010135011501132259ed081007ed041007ed041007ed08100758534b3039ecf410003139ec3cfc10077000036f010507;
0x1a4c060a0017080804140f00080216040f0e110105bc0009970eb116be180e871000a9030718140b28409b001900150014064a0400002f000200000c010c01bf;
0x58540eb04b01593837113840001a001a000100c0ff1a00bd58540ab04b013039391232ee10ee10eefeee32e63c2f00313939121132ee10c43cfcc432c43cfc10;
0x3b36343533352311231121112311015d005d081bef1bd01ba01b8010800f801b501b300419101810171016101a405938371138c0ff1a001a00010040001a00bd;
0x8400150014064a0400002f000100e9b20163685099afb74e8fd1032ffcd103a0fb6004b9b9f9014d63b0b9b3adb0b0b907feb94a0423153301011d0622231501;
0x3039391232ee10eefe32e63c2f003139391211ee10c43cfcc4c43cfc10164c0e12011008080c0a010803080a0005020dbc09119700870409a90b0f0413082140;
0x17d017a017800b800a801750173011405938371138c0ff16001600010040001600bd58540eb04b0159383711384000160016000100c0ff1600bd58540ab04b01;
0x10000abbb4e8fd1032ffc8f6368507b05ecf91406aeb0b0b9d1fe2f014d63b7feb900024a02363435333523112311211521011d06222111231121015d0817ef;
0x32c4f4e410003132ec3c3cfc32ec3c3cd4101403070b59050957010d1159000f14c202810c0a0e0200040ab9081000b9061220403e001300d505c7033bff3900;
0x995cfea401991f029aa4015cfedf6f0191fe6f01b06f0191fe6f0191feb091fec70321112115211133112135211121352111231121253032ee1032ee1032c410;
0x83009e030b4018000500fe00d30112ffae000100fe4603d3d3db2315331330ecd4100031ecd4100400190104008302b7120003004603ae014802db000100e1fd;
0x104030c8300069e0309134027000b000500fe006d0312ffae0002004001c0feacfe5281a4d3000113230315332530ecfc100031ccd4ecd41006001901040306;
0x4001c0feacac4001c0feacfe5281a4d366fe5281a4d39a021323031533251323031533253032ec3cfc100031ced4eedc10ccd4ecdc100c0619070a09070019;
0x4c9118248c12263a8d0c349206461892288d1e922e0c920040422724270f262526250f244440ae004b003f0033002700230017000b00f0054c0ae3ff71000700;
0x32e43c3cf432e4100031391211391211ee10eef6ee10ee10e4ecc4d4ece4fc104c0b210e1b0d2b37150d490e3d1b0d31150d030e0f0d093d0d432b3127434925;
0x4c00010040004c00bd585b540eb04b5b540db04b5b540cb04b5b540bb04b5b5409b04b5414b04b012259ed051007ed05100758534b3032ee10eef6ee1032ec;
0x15163201263435363233161415062213230133213634352622230614151632013634352622230614151632272634353632331614150622015938371138c0ff4c;
0xba9eb203646357576263561fa05afca02504bab99f9fbbbc9e74f9bbbaa09dbbba9e5563635557646457f4082634353632331614150622173634352622230614;
0xdbbcbbdbdbbbbbdc9ffd96818494948482958e05f3f9dcbabcdbdabdbbdbe002dbbcbbdbdbbbbbdc7f95838295958284949102636355576363579fbbbaa09dbb;
0xffff75019e000701070000000000280027026d078b040000c900ffff7501bc000701070000000000240027026d07680500001000ffff0095838295958284947f;
0x280027026b078b040000c900ffff75019e000301070000000000280027024e078b040000c900ffff7501bc000401070000000000240027026b07680500001000;
0x75012fff07010700000000002c0027026d0760020000feffffff75012fff04010700000000002c0027026b071f020000a200ffff75019e000601070000000000;
0x27026b07d905e3ff7300ffff75012fff06010700000000002c0027026b07ba0100003b00ffff75012fff03010700000000002c0027024e07580200000600ffff;
0x27010601070000000000320027026b07d905e3ff7300ffff750127010701070000000000320027026d07d905e3ff7300ffff7501270104010700000000003200;
0x6b072905e3ffb200ffff7501ee000701070000000000380027026d072905e3ffb200ffff7501ee000401070000000000380027026b072905e3ffb200ffff7501;
0x33135d0105057005600550054005100b4030ec2f0031ecfc10044600080102bf00b720000300600479010000c10001007501ee00060107000000000038002702;
0x700bd585b540eb04b5409b04b00303932ecf410003139ecdc10070675020407b300b40205040c403700060066063f03ee04c100010000a0fb6004b8b8c12311;
0x40b0f071201040b0e071200244063001b0037064a031d05b6000100f5f588fe66068bb4b48bf594b6012307272313330159383711384000070007000100c0ff;
0xcb04b5409b04b0030391211391211391211391211ec3cd4fc3cfc1000313939393911ecfcecf4101c760856077716561507000e010f1ced0b15c3040719c312;
0x40265b66027d0224260d211639fc01262223010e3337363233011e011f163233013e2307062223012e2701593837113840001c001c000100c0ff1c00bd585b54;
0xfc100031ccd41004000104ee00ef02b72f000300f6052b036205d5000100001c93875249131437211c938752491314375a0540265b66027d0224260d21163925;
0x704f00b0e4057000d00480639032905c70001000094f605aafd5602d52115211359383711384000040004000100c0ff0400bd585b540eb04b5409b04b0030ec;
0xbd585b5411b04b5b5410b04b540fb04b00593837113840000e000e000100c0ff0e00bd585409b04b0030ecd43cf4100031ecd4ecdc100e0056010856070eb300;
0x1006660244059a01010090908f4c4a4b4b48069e91919e0a760d605657610b76c7262223010e3337363233011e33135938371138c0ff0e000e00010040000e00;
0xee00020000cc1006cccc9a012315330159383711384000040004000100c0ff0400bd585409b04b0030ecfc100031ecd4100400640104cd00ce0209402c000300;
0x18000100c0ff1800bd585b540cb04b5409b04b0030ecf4ecf4100031ecf4ecd41018125606780c560018f10fc109f215c10311405f0017000b0006071203e104;
0x36343526222306143736323316141506222326340159383711384000180018000100c0ff1800bd585b540cb04b5b540bb04b540ab04b01593837113840001800;
0x130006f30d0a06090e401f0013000000c10275fe23010100009f9f7373a0a073405857414057583ff4059f73739f9f73739f7a58404157574140589802163233;
0xc0c5b5930693e2d2b3c3b2f4a222b572e7678363754022726343536323316163527262223061415161621303912c4fcd42f0031ccd4ecd4dc10140903271000;
0xb04b003032ec3cf41000313912113911ccd4dcd4100807050301050003070408b30004b4020611404200070003006606ae03ee04f00002003d571e2e300f1183;
0x13000000c10275fe4c0101000088fe780188fe660689dfaa8187f8b2fc02230333032303330159383711384000080008000100c0ff0800bd585b540eb04b5409;
0x1f3e2036372b2d77b8013634352622230606153736323316141506063321303912c4fcfc2f0031ccd4c4ecd410141127040a000100f40ef3070a0e0b0f402000;
0x9b04b003039ec3cf410003139ecdc10070175050307b30104b400030c403700060066063f03ee04c100010069305d570a0a850f0f2e2e1f583d35737a1e4426;
0x1e403f000d00d50575040000f2ff010088fef5f57801ee04f58bb4b48bf5b6010333371733030159383711384000070007000100c0ff0700bd585b540eb04b54;
0x1133135d01020f500f30b430391711ece42f0031391211391211c43cfcc4ec3cf4100e7900093a070c1c010504000e0b010403088100950600060203040a0b0c;
0x2030408090a1a405e000b0014064802000002000100009e6e6a3b02aae3fdeefe6fdb98fdd505e14d945efcd70277fe503901cbd33727071121152111011725;
0x5938371138c0ff0c000c00010040000c00bd585410b04b01303917ec2f0031391211391211e43cfce43cd4100c00077a0a0801057a04000a0901040306970006;
0xe3ff8700ffff008d6a589a02e3fc8d6a5aa6fd1406c54a7bb8c94c7db8c73727071123110717371133135d090df00de00d700a7a04730d600d500d400d101340;
0x3d0027026d071f0500005c00ffff00001700e000070000000000560027026606c703e3ff6f00ffff75018b000801070000000000360027026d07a204;
0x2060500040805f50400f5010d401c00070003009805ae01a2fe0401020000001b00e0000700000000005d0027026606db0300005800ffff7501be0008010700;
0x950d0ba909102040670019000c00d505ba0500000a00020000f6020afd0004f6020afd9801aaaaaaae01112311131123110130ecd4ecd410003132ec3cdc1008;
0x9f0a9f099f031bb01b7f1b2028403032ee10eef6ee32c62f00313917c410ecf4c432ec3cf4101a7900081c0d110a320419160d0f0413190107070b0e95128100;
0x9601b101a001d321001011002033112115211113333523110129001011002021135d015d1011bf10bf0fbf0ebf0cbf0bbf0abf09bf119f109f0f9f0e9f0c9f0b;
0x28000e0014067504e3ff7100020017012c012e011801eafd901dfee30190bc0296fe7efe80fe97fed505cbfee1fe1f013501f3b0fe5001cbc9c960fe50fe69fe;
0xb903230f031e23081f20212225262728421f2020211f201f222322272828252425272827261e231e28277b281e237b0f1e23237b241e231e25267b255e402701;
0x39123912ee10ecf4c4ec100031393912113939123917393911ecf4ecfc1029451812065112120c060f1e051f222325281820210c12272629b1231b8c15b9091b;
0x272d262d2529242f232f22281f2b251676405d01012a3fb22259ed081007ed051007ed0e07ed081007c90e1007c9081007c9081007c90e100758534b30391712;
0x7f0b7f0a7f097b037a027f017f007f21622062215a205a254524462536243628272726262624252325132275217520752266216020602158205825462536282a;
0x2223001415121613263435363233161415062223012e015d005d272af02aa02278217620761e7f1d7f1c7a1b7a157b147f137f127f117f107f0f7f0e7f0d7f0c;
0xd810119303d9fe214d017fe4b5190121c1fe9f2a3412dd1401e5fee7e6e4fe727e0936ae9192aeb9a72958324603051725173327252705271716323300343500;
0x3d00ffff7501730004010700000000003c0027026b07e7040000fcffffff0062616f91cc5c636bb405053701faff3701c9feffade0fe8f2601bc7abcdedebcc3;
0x1c010a0d3f061912010403090f150b8100f602950d09950e1b403d0015000c00d5058d040000c900020000005e008d000700000000005c00270266067f0456fe;
0xfe0101fbfecac92326343536323311132311012b0414150432331133135d0104175f173f171f170f094030ecd4ecfcf42f0031391711ecfc3232ecfc10160400;
0x12111d9703bd01b8088c0e00b91a0805b9141b403e001c0010001406a40456feba00020091868692d1fd2704aefee2dcdce1f8fed5058e999a8dfecacafefbff;
0x2223263401262223021011123233013e1133112311255d01041ee01ea01e801e60094030eec610ecc4f4e4e4ec100031ecf43232ecfc101d460208000417470b;
0x2d02d900010000e7e7cbcbe7e7cbeb0161bcfef8fef8febcfe6164a2fdbe07aefda8a79292a7a79292a73802b17bccffffcc7bb13ab9b9730136323316141506;
0x89c090708070a0b9c0a4d4085000b00c5049c053f001901010000aad702fefa0205d92115211330ecd4100031c4d41004000104029c00b611000300d702db05;
0x2080103040507090a0b0c090b030508000102040607080a420001010a099c0a0001009c0b0102029c0301020104059c040607069c0506070704039c040708;
0x12701010702092259ed081007ed051007ed081007ed051007ed081007ed051007ed051007ed08100758534b30391732cc3cd4100031391732cc3cd4100c0608;
0x718402c000a00df05c5029c0289000100cb0135fe79cb01c9017935fecb017937fe35fe4c04cb01cb017638fec8017635fe35fe77c90137fe9c0501013701;
0x2963020a03d7fdcd89e6dfcc9c21153311333735071133133032ee10ecd4ececf4100031e4fce4f4dc100b007c017c035d067c080b9105f709dd0204dd0309dd;
0xecc4d4c4dc1019030e15017e080e001991120fdd0bf702dd000fdd0e000204420406067d170004067d0024404a001800f005b4029c025e000100006e2bfd2774;
0x13f22aafda8010c01060114151632333636350706222326343500373635211521012259ed05073217ed05100758534b30391211ee10ecfcecc4f41000313911;
0x15dd1320dd1f09dd0a131500274048002800f005cd028d026200010030e4fe8b6c841c1c7b232351425e3101381f6e720e0338b5feae9139854d487a34556858;
0x6141516160130391211ee10ee10ecd4ece4fcece4f410003139393911ecd4ecd4c4c4dc1029091f14037e10267e1914001316299123f820dd1cf706f809dd0d;
0x903780495166285f64615e5e566c6f786d437734467d39b1be655c0c020614151632333636350706222326343536323335232326343536323316163527262223;
0x8b040901070000003503bc00270000000000f0002700f0057f07e3ff8900ffff6045637612117317123d3a3c3f6c4c4a464f1a1b791415867c526d1260045aa9;
0x70000003503bc00270000000000f2002700f0057f07e3ff6200ffff64fd8b04f100070000003503bc00270000000000f0002700f0053f07e3ff8900ffff64fd;
0xc900ffff00008b00da000700000000004a00270248065a0456fe7100ffff75011b010a010700000000002a0027026d078b05e3ff7300ffff64fd8b040901;
0x560027027b04c70375fe6f00ffff00008b00dd0007000000000036002702f005a20475fe8700ffff75012fff0b010700000000002c00270250079501;
0x7300ffff000089008d00070000000000460027026606e703e3ff7100ffff75012d010401070000000000260027026b072705e3ff7300ffff00001700dd000700;
0x4a00240018001406f404e3ff7100020000008900e000070000000000460027026606e703e3ff7100ffff75012d010801070000000000260027026d072705e3ff;
0x3032ee3cfdeec410ecc4f4e4ec2f0031c43c17fcc43cf4ecfc10254513121947060a08080003040c1f020b9705b8168c100db91c1600b922f90109d303072440;
0xcbffffcb7cb13ab89a9ab84601bafea203062223263435363233161401163233121011022223010e35231123153315333521352111015d010326a026802660b6;
0x104029c00b61100030083027f02df016400010000e7e7cbcbe7e7cb15fe6144010801080144016164a8fcfa7d93937d4e01b603a79292a8a89292a7c7fdb17c;
0x3d3d3db2315331330ecd4100031ecd4100400190104008302b7120003004603ae014802db00010000a48302e5fd1b02642115211330ecd4100031ccdc100400;
0x26202c0811090d030a101226232921222b3209298c1d912f9504ae00a1011d9516ae1aa11909d3072b1022d312203a401c013100f0058f04e3ff00000100fe46;
0x9b04b013032ee3cdd32ee10eef6ee10ecf4ecf4e432c4100031393911393912391711391211393912393912c4c4fc32c4d43c2f212a2600191c0d1108110713;
0x6f0f6e0e6c0c691454310b020b010e000e7a4059383711384000320032000100c0ff3200bd585b5418b04b5b5417b04b5b540fb04b5b540db04b5b540cb04b54;
0x9f239f229f219f209f1f96139f129f119f109f0f9f0e9f0d9f0c9f0b9f0a9f099f089f079f2d692769256c246e236f226f216f206f1f6b1469136f126f116f10;
0x21072117161415010e21072107062223012e15015d005d0a1f67156a1e531555092008200910081009000800322d9d2c9f2b9f2a9f299f289f279f269f259f24;
0xcbfeed60b9595ba9669dca208afe38be0102010102e6fd37410220ca9d66a95b8f04163233001233372335363435263433372303002223010e1537363233011e;
0xd90529030e05d700020047220101017b172f23202f177b030122014848d3695acabb7b182e20232e187bbbc85a69d56205b962ec3601289c37c201018b37d328;
0x15938371138c0ff08000800010040000800bd585b5411b04b540eb04b003032ec3cd4100031ecdcfcd41008046405006401080206ce00040d40a50007000300;
0x4b005938371138c0ff08000800010040000800bd585b5419b04b5411b04b0159383711384000080008000100c0ff0800bd585b5417b04b5b540db04b540eb04b;
0xcbcbcbd905cbcb79fecbcb5e0223153325231533015d010806700570027001700660056002600160114059383711384000080008000100c0ff0800bd585418b0;
0xbd58540cb04b002259c9051007c905100758534b30ccf4100031c010c4100403030104fa020042030000010300030211407f000300f605f002ee0473010100;
0xf000f090267016a025602460236022501250215020620405938371138c0ff04000400010040000400bd58540eb04b0059383711384000040004000100c0ff04;
0x101efa081bc31304c30c1708030001070c13030f1016214075001d00e9054a030e05b6000100f8fef60599e4b93702230333015d015d06012f002f011f001f01;
0x4b00593837113840001e001e000100c0ff1e00bd58540cb04b00303917121139171232ecd4ec3cf41000313939393911ecd4ecd4101e09560718561607000f01;
0x1f1939fc01262223010e33013d363233011e011f163233363423011d062223012e27015d021a1f0b10b45938371138c0ff1e001e00010040001e00bd58540eb0;
0x30002030201114089000300f6058b02ee040c0101001077640629330c0d1e1b107665062d320b0e2139053b225467027d28200f221739303d2456677d28240c;
0x58540eb04b0059383711384000040004000100c0ff0400bd58540cb04b002259c9051007c905100758534b30ccf4100031c010c4100403030104fa0100420203;
0x15d06032f002f031f001f030f000f0e01af00af019f009f01550055014301350124002401120016010600062a405938371138c0ff04000400010040000400bd;
0xff0700bd58540cb04b003039c43cf410003139c4d4100706020407fa020500040a4077000600f8053103ee04cf0001000801f8fef605e699c4c701032313015d;
0x134059383711384000070007000100c0ff0700bd58540eb04b015938371138c0ff07000700010040000700bd58540eb04b0059383711384000070007000100c0;
0x7fa000104030a4086000600f8053103ee04cf000100b2b2f6fef8058ba6a68bd3bca201230727231333015d0009042d012f002f041d011f001f040c010f000f;
0x700bd58540eb04b0059383711384000070007000100c0ff0700bd585b540bb04b5b540ab04b5b5409b04b540cb04b00303932c4f410003139c4d41007010503;
0x3015d0009062003220020061003120010060003030000134059383711384000070007000100c0ff0700bd58540eb04b015938371138c0ff0700070001004000;
0xdc100e0c0408065d000a0c010e9103f7090105dd070b03001640d4000d000200df05f4029c023f00020000f6feb2b20a01ee04d38ba6a68bd3a2010333371733;
0x38c0ff0e000e00010040000e00bd585b540ab04b5b540bb04b5b5411b04b5b5410b04b5b540fb04b540eb04b0130391232ec3cd4fcf4100031391132ecc43cd4;
0x20f010f00010b03bb03ab038b03690359034601490139012f011d010b5440593837113840000e000e000100c0ff0e00bd585b540eb04b5411b04b0059383711;
0x1133032101095d015d1e00b500a5008400650d5b00530d4b0047003500220d1f0c1f0b1f081f071f061f051f021f011f00130d0f0c0f0b0f080f070f060f050f;
0xe0056010856070efa0bc30400070e406a000d00f80539030605c70001000079baba6de4fd1c025dfe660562fe908787a6163501cbfedd013521352315231533;
0xb04b015938371138c0ff0e000e00010040000e00bd58540eb04b00593837113840000e000e000100c0ff0e00bd58540cb04b003032c4fcf4100031ecd4ecd410;
0x7a7b7738373936f8059f908fa00a7610615253630d76c7262223010e3337363233011e3313593837113840000e000e000100c0ff0e00bd585b540fb04b540e;
0x1a010000010003001400000000000100020000000000cddb05cccc9a012315330130ccf4100031ccd41004000104fa0200b611000300db0566020e059a010100;
0x1c1b1a191817161514131211100f0e0d0c0b0a090807060504030000010000000000000000000000000000000200000003010000000000000001000006010000;
0x5c5b5a595857565554535251504f4e4d4c4b4a494847464544434241403f3e3d3c3b3a393837363534333231302f2e2d2c2b2a292827262524232221201f1e1d;
0x9b9a999897969594939291908f8e8d8c8b8a898887868584838281807f7e7d7c7b7a797877767574737271706f6e6d6c6b6a69686766656463620061605f5e5d;
0xdad9d8d7d6d5d4d3d200d1d0cfcecdcccbcac9c8c7c6c5c4c3c2c1c0bfbebdbcbbbab9b8b7b6b5b4b3b2b1b0afaeadacabaaa9a8a7a6a5a4a3a2a1a09f9e9d9c;
0x6222221ac203a2030202620c003a903dd02c70292017e01780161015301420131011f0111010701ff007e001a00040020003a0000003e020400e0dfdedddcdb;
0x2b220f2202222221ac20392030201320c003a903d802c60292017d0178015e015201410130011e010c010601a00020000000ffff02fbca25652248222b221e22;
0xefda00005fde71de000000006adf56e085e096e00000dbfcf6fc0000000014ff68ff43ff00005effa0ff0000d8ff0000f5ff0000e3ffffff01fbca2560224822;
0xac00000000000000420100000000280120010000000000000000020100000000fc00fa00000000000000fa0000000000fc000000f4000000380000000100bf05;
0xad00a200f500f400f300aa009e00f000dd00c300880097008d00f200f10093008300d9008a000001a400a9009d008b008e008600e7009600bd0085008400a300;
0x6a008900ec00ea006800d400d300d5009100ef006700af00d100d000d2006600e800ce00cd00cc00cf00ca00c8006500cb006400900063006200ae00c700c900;
0xfd00ba00ed00eb00810080007e007f00a100b8007c007d007b0079007a007800e900770076007400750073007200700071006f00a0006e006c006d006b006900;
0xc500b500b4000000c400b700b600000000000000b300b200de00d800df00dc00db00da00e000d700e400e300fa00f900d600f800ff00000000000000fe00;
0x8f009200000000000000a5000101000000000000bc0000000000ee00990000009a00a8000000000000009800ab000000000000008700c2008200;
0xd900b4063d000004a4001f03b0001f03c500330281003d0671009a07aa0017059e00b406c500ae033501350300008b0200008b02000000006600cd0495009400;
0x9e00b202f000b202810017058b001705a80017058f0017059e001705640017059c00170596001705e1001705870017050000b202db008b026400e3029e008b02;
0xc9003f0596ff5c02c9005c02c900040673003306c9009a04c9000e05c900290673009605c9007d05100079058700000893003f04d900b406d900b406d900b406;
0xb0001f035c007b05fcffe3043d007b054400e90710007905b200db05faffe30487001405c9008f0573004c06c900d30473004c06c900fc05c900e706c9007504;
0xba00a204dbff3902c1003902ba001205710014052f00d1027100ec047100140571006604ba0014057b00e704aa000004ecff0004d900b406c7001f030000b202;
0x11705580033043d00bc043b00bc0456008b063d00bc04ae001205370023036f002b04ba004a0371001405ba0014057100e504ba001205ba00cb07c1003902;
0x7b00e7047b00e7047b00e7047b00e7047b00e7047b00e704b200db0573004c06c900fc05c9000e05730096051000790510007905d900b406000117050401b202;
0xae0012057100e5047100e5047100e5047100e5047100e504ba001205f4ff3902deff3902c7ff3902900039027100ec047100ec047100ec047100ec0471006604;
0xd700000473010004270100081b0100081b010008ba000a059e0017053301b8045c00000481001705ac001705c300000439000004ae001205ae001205ae001205;
0x6000c5037300c5032f002b04e1ffb6049c000e061900640568002304ae00170552001705d900b406d900b406d900b406dd00aa0666004c060800cb07d900b406;
0x100079051000790500001705ec000008c100e5049e00e504faff5a05d900b4061f0017053d001905d900b406350135038f003f044800e5047b00db074e001d06;
0x9e0033035e00170589fe5601fcffe3043d00bc040600f403d900b406b2008b02ae008b02ae002504ae002504000000080000000471002f0873008f0873004c06;
0x6005c02feff5c02a2005c02c9000e05c9000e0510007905c9000e05100079057100bc0aae002504ae008b02db008b02390000042f000a052f000a05c1003303;
0xf000000423010004ee0000049a010004c7000004d5000004b6000004c1000004c1003902b200db05b200db05b200db0573004c0673004c0673004c063b005c02;
0xd900b406ba001405c900d7043d00bc04fcffe3047100e5040a0033060401b202580033045c007b056f002b048700140502004602f2ff7f04c10000044c010004;
0x710066047300960571006604730096056f002b0487001405c9005c0271001405730033066200c1078900c1078900c107620035035e003503890035031901b406;
0x8f002bff00000000000002009a010004c70000043f003503cf000004cf0000040c010004b600000473010004d700000400001705db008b026400e30271001405;
0x140013001200110010000f000e000d000c000b000a0009000800070006000500040003000200010000000c010000000000000000000000000000000000000000;
0x340033003200310030002f002e002d002c002b002a0029002800270026002500240023002200210020001f001e001d001c001b001a0019001800170016001500;
0x540053005200510050004f004e004d004c004b004a0049004800470046004500440043004200410040003f003e003d003c003b003a0039003800370036003500;
0x740073007200710070006f006e006d006c006b006a0069006800670066006500640063006200610060005f005e005d005c005b005a0059005800570056005500;
0x940093009200910090008f008e008d008c008b008a0089008800870086008500840083008200810080007f007e007d007c007b007a0079007800770076007500;
0xb400b300b200b100b000af00ae00ad00ac00ab00aa00a900a800a700a600a500a400a300a200a100a0009f009e009d009c009b009a0099009800970096009500;
0xd500d400d300d100d000cf00ce00cd00cc00cb00ca00c900c800c700c600c500c400c300c200c100c000bf00be00bd00bc00bb00ba00b900b800b700b600b500;
0xf400f500f300f200f100f000ef00ee00ed00ec00eb00ea00e900e800e700e600e500e400e300e200e100e000df00de00dd00dc00db00da00d900d800d700d600;
0x63646f697265700e6e6568707968746673090d010c010b010a010901080107010601050104010301020101010001ff00fe00fd00fc00fb00fa00f900f800f600;
0x343663053836343663053736343663053636343663053336343663053236343663053136343663053036343663053935343663056f7275450464657265746e65;
0xcf086508fc07b7074c07e1067e060506820545050305de04ca04b40498046e042104f603b20383034f02b601ff00930058002200220022002200000000003936;
0xeb138a13bd12e01170112911f1107510eb0f850f450f000fac0e2f0e0d0e7a0d3d0d140de60c930c690c3a0cfb0bb00b580bdf0a1f0aae09730952091609ee08;
0x771f871eba1d9d1c001cc41b871bd81aa11a521a041ab31977191619f818801843181b18df177b172317b9166d162216d615401518150315e114b1148b145014;
0x27231a230d230023f322e622d922cc22bf22b222a52298228b227e227122642257224a223d223022232216220922fc21ef21e22142213521f32072205b20e81f;
0xa02d502db12c8f2c442cd32b7a2be92aa32a5c2a252a5f29c32858281328b72790274b27ba2614268125532533258f243424cf23942368235b234e2341233423;
0xcf35ab359e359135673539351c35ff34d134a3348f347a34e63397338a337d33703370334633df327a324832cf31503121310531bd304130872faa2e522e0e2e;
0x5e3b083be53aa03a7b3a1c3aef39d239c539b839ab399e399139843977396a395d3950394339363929391c390f394a381c380038eb37a9374337cd3693365b36;
0xc840bb40ae40a140944087407a406d405c404b403a40dc3f8d3f613ffd3ee73e983e553e483e3b3e633dfe3cdb3cce3cc13cb43ca73c5f3c223cf43bc43b8e3b;
0x1000b7ff25001000d3ff2400100078150a00001894070100862d00000100000000003f452a45db445544ff43b2435f43f742aa4245426b4156414041e240d540;
0x4b003400100000003300100039003200100000002f00100000002e00100072002d00100000002b0010004b002a00100000002900100000002700100000002600;
0x5500100026005200100000005100100000004900100000003d0010000dff3c0010009aff3b001000adff3a00100088ff3900100044ff37001000000035001000;
0x100026007b00100026007a001000260079001000000078001000390067001000000064001000d3ff62001000dcff5c00100000005a001000c9ff590010000000;
0xd3ffc9001000d3ffc70010000dffbb001000dcffba0010003900af001000d3ffae001000d3ffad00100000009000100000008900100026007d00100026007c00;
0xfd0010000000fb0010004b00f60010000000ec001000dcffeb0010000dffea0010000000e90010000000e50010003900d20010003900d10010003900d0001000;
0x240061ff37002400000036002400dcff34002400dcff32002400dcff2a002400dcff26002400390024002400dcff1d002400dcff11002400d3ff100024000000;
0xdcff54002400dcff52002400b7ff49002400dcff48002400dcff47002400dcff4600240061ff3c00240000003b00240090ff3a0024007dff3900240000003800;
0x70002400dcff6f002400000068002400dcff67002400dcff6400240039006200240075ff5c002400adff5a00240088ff59002400000058002400dcff57002400;
0x240000007f00240000007e002400dcff7d002400dcff7c002400dcff7b002400dcff7a002400dcff79002400dcff73002400dcff72002400dcff71002400dcff;
0x61ffbb00240075ffba00240003ffb5002400f8feb4002400dcffaf0024003900ae0024003900ad0024000000aa002400b7ffa900240000008100240000008000;
0xea0024000000e30024000000d50024000000d40024000000d3002400dcffd2002400dcffd1002400dcffd00024003900c90024003900c70024002f00c5002400;
0x2500dcff2a002500dcff26002500000010002500dcfffe002400dcfffd002400dcfffc002400dcfffb0024000000f9002400dcfff600240075ffeb00240061ff;
0x90ffb4002500dcffaf002500dcffaa002500c1ffa9002500dcff67002500dcff6400250090ff3c002500b7ff3a002500c1ff39002500dcff36002500dcff3200;
0xfb002500dcfff9002500dcfff600250090ffea002500dcffe3002500dcffd2002500dcffd1002500dcffd0002500adffc500250090ffbb00250090ffb5002500;
0x26000000ae0026000000ad002600dcffaa002600dcffa9002600000062002600dcff3c002600000036002600000024002600000010002600dcfffd002500dcff;
0xdcff240027000000100027000000f9002600dcffea0026000000e30026000000c90026000000c70026000000c5002600dcffbb0026002600b50026000000b400;
0xbb002700c9ffb5002700d3ffb4002700dcffae002700dcffad002700dcffaa002700dcffa9002700dcff6200270090ff3c00270000003a002700dcff39002700;
0x2900dcff37002900dcff3600290044ff2400290061ff1d002900b7fe1100290000001000290090ffea002700dcffc9002700dcffc700270044ffc500270090ff;
0x44ff6b00290044ff6a00290044ff6900290044ff6200290044ff5c00290090ff580029006bff55002900b7ff520029006bff4c00290090ff4800290044ff4400;
0x7c002900b7ff7b002900b7ff7a002900b7ff7900290090ff7300290090ff7200290090ff7100290090ff7000290044ff6e00290044ff6d00290044ff6c002900;
0x2900d3ffb400290044ffae00290044ffad0029000000aa0029000000a900290090ff8100290090ff8000290090ff7f00290090ff7e002900b7ff7d002900b7ff;
0xb7ff37002a00000024002a00000010002a00dcfff900290044ffeb002900dcffe300290044ffc900290044ffc700290088fec500290044ffba0029000000b500;
0xc5002a009affbb002a00d3ffb5002a00d3ffb4002a000000ae002a000000ad002a00dcffaa002a00dcffa9002a00000062002a009aff3c002a0000003a002a00;
0x2b00c1ffb5002b00b7ffb4002b000000aa002b000000a9002b0000001d002b00dcff11002b00000010002b009affea002a000000c9002a000000c7002a00c9ff;
0x90ffc5002d00c1ffb5002d00b7ffb4002d00dcffae002d00dcffad002d00dcffaa002d00dcffa9002d00dcff62002d00dcff24002d00b7ff10002d00b7ffc500;
0x44002e00b7ff3c002e00b7ff3a002e00c9ff38002e0061ff37002e0090ff32002e0090ff26002e00dcff24002e0029ff10002e00dcffc9002d00dcffc7002d00;
0x2e00dcff6a002e00dcff69002e00c9ff68002e0090ff67002e0090ff64002e00dcff62002e006bff5c002e009aff58002e009aff52002e009aff48002e00dcff;
0x9aff7b002e009aff7a002e009aff79002e009aff73002e009aff72002e009aff71002e009aff70002e00dcff6e002e00dcff6d002e00dcff6c002e00dcff6b00;
0xaf002e00dcffae002e00dcffad002e000000aa002e007dffa9002e009aff81002e009aff80002e009aff7f002e009aff7e002e009aff7d002e009aff7c002e00;
0x2e0090ffd2002e0090ffd1002e0090ffd0002e00dcffc9002e00dcffc7002e000000c5002e00b7ffbb002e006bffba002e00c1ffb5002e00c1ffb4002e0090ff;
0xe6fe37002f00b7ff32002f002f0024002f00dcff10002f0090fffd002e0090fffb002e006bffeb002e00b7ffea002e00c9ffd5002e00c9ffd4002e00c9ffd300;
0x67002f002f0062002f0044ff5c002f00dcff58002f00dcff52002f00dcff48002f00000044002f00f0fe3c002f0044ff3a002f001fff39002f009aff38002f00;
0x2f00dcff72002f00dcff71002f00dcff70002f0000006e002f0000006d002f0000006c002f0000006b002f0000006a002f00000069002f009aff68002f00b7ff;
0xa9002f00dcff81002f00dcff80002f00dcff7f002f00dcff7e002f00dcff7d002f00dcff7c002f00dcff7b002f00dcff7a002f00dcff79002f00dcff7300;
0xc9002f002f00c7002f000000c5002f00f0febb002f0044ffba002f00e6fdb5002f0061feb4002f00b7ffaf002f002f00ae002f002f00ad002f000000aa002f00;
0x3200adff1100320039001000320044ffeb002f00f0feea002f009affd5002f009affd4002f009affd3002f00b7ffd2002f00b7ffd1002f00b7ffd0002f002f00;
0xd3ffb4003200dcffae003200dcffad0032000000aa003200dcffa9003200dcff6200320090ff3c0032007dff3b003200dcff39003200dcff24003200dcff1d00;
0x380033007dff2400330000001d003300c1fe11003300d3ff1000330090ffea003200dcffc9003200dcffc700320044ffc500320090ffbb003200dcffb5003200;
0x3300dcff58003300dcff56003300dcff55003300b7ff52003300dcff51003300d3ff4c003300b7ff48003300a4ff44003300d3ff3c00330000003a0033000000;
0xb7ff71003300b7ff70003300a4ff6e003300a4ff6d003300a4ff6c003300a4ff6b003300a4ff6a003300a4ff690033000000680033007dff6200330000005c00;
0x80003300dcff7f003300dcff7e003300b7ff7d003300b7ff7c003300b7ff7b003300b7ff7a003300b7ff79003300dcff78003300b7ff73003300b7ff72003300;
0x3300b7fec5003300d3ffbb0033000000ba0033002600b50033002600b40033007dffae0033007dffad0033000000aa003300dcffa9003300dcff81003300dcff;
0xa9003400390010003400dcfffa0033000000eb003300d3ffea003300dcffe40033000000d50033000000d40033000000d30033007dffc90033007dffc700;
0x390035006bff370035009aff26003500adff24003500c1ff1d003500b7ff11003500adff100035007dffc5003400dcffb5003400d3ffb40034000000aa003400;
0x3500d3ff690035009aff64003500adff6200350090ff5c003500a4ff58003500a4ff52003500a4ff48003500d3ff440035007dff3c003500adff3a00350090ff;
0xa4ff7a003500a4ff79003500a4ff73003500a4ff72003500a4ff71003500a4ff70003500d3ff6e003500d3ff6d003500d3ff6c003500d3ff6b003500d3ff6a00;
0xae003500adffad003500dcffaa00350090ffa9003500a4ff81003500a4ff80003500a4ff7f003500a4ff7e003500a4ff7d003500a4ff7c003500a4ff7b003500;
0x35009afffb00350090ffeb0035007dffea003500adffc9003500adffc7003500dcffc50035007dffbb00350090ffba0035007dffb50035006bffb4003500adff;
0x2600ad00360000006700360000006400360026006200360000003600360000003400360000003200360000002a0036000000260036002600240036009afffd00;
0xfb0036000000f90036000000f60036000000e30036000000d20036000000d10036000000d00036002600c90036002600c70036000000af0036002600ae003600;
0x3700a4fe48003700a4fe46003700adfe44003700dcff3700370088ff2600370061ff240037001fff1d0037000dff1100370044ff100037000000fd0036000000;
0xadfe6a003700adfe6900370088ff6400370061ff62003700c1fe5c003700adfe5a003700c9fe58003700adfe56003700d3fe55003700a4fe52003700c1ff4c00;
0x7a003700a4fe79003700a4fe73003700a4fe72003700a4fe71003700a4fe70003700a4fe6f003700adfe6e003700adfe6d003700adfe6c003700adfe6b003700;
0x370061ffad00370090ffaa00370044ffa9003700c9fe81003700c9fe80003700c9fe7f003700c9fe7e003700a4fe7d003700a4fe7c003700a4fe7b003700a4fe;
0x88fffb003700adfefa003700c1feeb003700adfee400370061ffc900370061ffc7003700f8fec5003700c1feba003700d3ffb50037000000b400370061ffae00;
0xc90038000000c70038000000ae0038000000ad003800000062003800dcff3d00380000002d003800000024003800a4fefe00370088fffd003700a4fefc003700;
0x390061ff52003900d3ff4c00390061ff4800390061ff44003900dcff320039007dff2400390059ff1d003900f8fe1100390088ff10003900dcffe50038000000;
0x61ff7000390061ff6e00390061ff6d00390061ff6c00390061ff6b00390061ff6a00390061ff69003900dcff670039007dff62003900c9ff5c00390075ff5800;
0x8000390075ff7f00390075ff7e00390061ff7d00390061ff7c00390061ff7b00390061ff7a00390061ff7900390061ff7300390061ff7200390061ff71003900;
0x3900e6fec5003900c9ffba0039000000b50039000000b4003900dcffaf0039007dffae0039007dffad00390090ffaa0039004effa900390075ff8100390075ff;
0x7dff44003a0090ff24003a0088ff1d003a0015ff11003a00adff10003a00c9ffeb003900dcffd2003900dcffd1003900dcffd00039007dffc90039007dffc700;
0x6c003a007dff6b003a007dff6a003a007dff69003a0090ff62003a00dcff5c003a00b7ff58003a00a4ff55003a0088ff52003a00d3ff4c003a0088ff48003a00;
0x3a0088ff7c003a0088ff7b003a0088ff7a003a0088ff79003a0088ff73003a0088ff72003a0088ff71003a0088ff70003a007dff6e003a007dff6d003a007dff;
0xb5003a00dcffb4003a0090ffae003a0090ffad003a00dcffaa003a0090ffa9003a00b7ff81003a00b7ff80003a00b7ff7f003a00b7ff7e003a0088ff7d00;
0x48003b00dcff37003b007dff32003b006bff26003b00000024003b009aff10003b00dcffeb003a0090ffc9003a0090ffc7003a00f8fec5003a00dcffba003a00;
0x3b000000ad003b000000aa003b0090ffa9003b00a4ff73003b00a4ff72003b00a4ff71003b00a4ff70003b007dff67003b006bff64003b00000062003b00a4ff;
0x6bfffb003b007dffd2003b007dffd1003b007dffd0003b000000c9003b000000c7003b00d3ffc5003b00adffb5003b0061ffb4003b007dffaf003b000000ae00;
0x52003c00b7ff4c003c00f0fe48003c00e6fe44003c0090ff32003c0090ff26003c0061ff24003c00f0fe1d003c0061fe11003c000dff10003c006bfffd003b00;
0x3c00e6fe6e003c00e6fe6d003c00e6fe6c003c00e6fe6b003c00e6fe6a003c00e6fe69003c0090ff67003c0090ff64003c0061ff62003c0015ff58003c00f0fe;
0x15ff7f003c0015ff7e003c00f0fe7d003c00f0fe7c003c00f0fe7b003c00f0fe7a003c00f0fe79003c00f0fe73003c00f0fe72003c00f0fe71003c00f0fe7000;
0xc7003c00f8fec5003c00dcffb5003c0090ffb4003c0090ffaf003c0061ffae003c0061ffad003c006bffaa003c001fffa9003c0015ff81003c0015ff80003c00;
0x3d00dcffb4003d000000aa003d000000a9003d00dcff10003d0090fffd003c0090fffb003c0090ffd2003c0090ffd1003c0090ffd0003c0061ffc9003c0061ff;
0xdcffaa004900b7ffa9004900dcff5c004900dcff5a004900dcff57004900b7ff1d0049006bff1100490090ff10004900dcff5b004800dcffc5003d00dcffb500;
0x69004e00b7ff5c004e00c1ff58004e00b7ff52004e00b7ff48004e00dcff44004e00dcffeb00490015ffc5004900dcffba0049000000b50049004100b4004900;
0x4e00b7ff79004e00b7ff73004e00b7ff72004e00b7ff71004e00b7ff70004e00dcff6e004e00dcff6d004e00dcff6c004e00dcff6b004e00dcff6a004e00dcff;
0x10005100b7ffeb004e00b7ffba004e00c1ff81004e00c1ff80004e00c1ff7f004e00c1ff7e004e00b7ff7d004e00b7ff7c004e00b7ff7b004e00b7ff7a00;
0x5b00520000001d005200dcff11005200260010005200a4ffc500510090ffb50051006bffb40051000000aa0051000000a900510000001d005100000011005100;
0x5500dcff47005500d3ff46005500dcff1d00550044ff110055007dff100055007dffc5005200b7ffb50052006bffb40052000000aa0052000000a9005200c1ff;
0x59005500000058005500dcff55005500dcff54005500d3ff52005500dcff51005500dcff50005500dcff4b005500dcff4a005500000049005500d3ff4800;
0x79005500dcff78005500d3ff73005500d3ff72005500d3ff71005500d3ff70005500d3ff6f00550000005d00550000005c005500c9ff5b00550000005a005500;
0x55000000aa005500b7ffa900550000008100550000008000550000007f00550000007e005500d3ff7d005500d3ff7c005500d3ff7b005500d3ff7a005500d3ff;
0x61ff11005900c9ff10005900d3fffe005500d3fffc005500dcfff70055000000eb0055000000e6005500c9fec50055000000ba0055005600b50055000000b400;
0xaa005a00dcffa9005a0090ff1d005a0044ff11005a00000010005a00f0fec5005900dcffb50059000000b4005900dcffaa005900dcffa900590090ff1d005900;
0x5b00c1ff72005b00c1ff71005b00c1ff70005b00dcff6f005b00c1ff52005b00c1ff48005b00dcff46005b0029ffc5005a000000b5005a000000b4005a00dcff;
0x6bff1d005c00dcfe11005c00dcff10005c00dcfffe005b00dcfffc005b00c1ff7d005b00c1ff7c005b00c1ff7b005b00c1ff7a005b00c1ff79005b00c1ff7300;
0x2a006200dcff26006200390024006200dcff1d006200dcff11006200d3ff10006200d3fec5005c000000b5005c000000b4005c00dcffaa005c00dcffa9005c00;
0x6200dcff4600620061ff3c00620000003b00620090ff3a0062007dff3900620000003800620061ff37006200000036006200dcff34006200dcff32006200dcff;
0x39006200620075ff5c006200adff5a00620088ff59006200000058006200dcff57006200dcff54006200dcff52006200b7ff49006200dcff48006200dcff4700;
0x7b006200dcff7a006200dcff79006200dcff73006200dcff72006200dcff71006200dcff70006200dcff6f006200000068006200dcff67006200dcff64006200;
0x62003900ae0062003900ad0062000000aa006200b7ffa900620000008100620000008000620000007f00620000007e006200dcff7d006200dcff7c006200dcff;
0xdcffd2006200dcffd1006200dcffd00062003900c90062003900c70062002f00c500620061ffbb00620075ffba00620003ffb5006200f8feb4006200dcffaf00;
0xfd006200dcfffc006200dcfffb0062000000f9006200dcfff600620075ffeb00620061ffea0062000000e30062000000d50062000000d40062000000d3006200;
0x64000000ae0064000000ad006400dcffaa006400dcffa9006400000062006400dcff3c006400000036006400000024006400000010006400dcfffe006200dcff;
0xadff110067003900100067000000f9006400dcffea0064000000e30064000000c90064000000c70064000000c5006400dcffbb0064002600b50064000000b400;
0xb4006700dcffae006700dcffad0067000000aa006700dcffa9006700dcff6200670090ff3c0067007dff3b006700dcff39006700dcff24006700dcff1d006700;
0x6800000062006800dcff3d00680000002d00680000002400680090ffea006700dcffc9006700dcffc700670044ffc500670090ffbb006700dcffb5006700d3ff;
0x11007800000010007800dcff5b007300dcff5b007200dcff5b007100dcff5b007000dcffe50068000000c90068000000c70068000000ae0068000000ad00;
0xa9007900c1ff5b00790000001d007900dcff11007900260010007900a4ffc500780090ffb50078006bffb40078000000aa0078000000a900780000001d007800;
0x7a000000aa007a000000a9007a00c1ff5b007a0000001d007a00dcff11007a00260010007a007dffc5007900b7ffb50079006bffb40079000000aa0079000000;
0xb7ffb5007b006bffb4007b000000aa007b000000a9007b00c1ff5b007b0000001d007b00dcff11007b00260010007b007dffc5007a00b7ffb5007a006bffb400;
0x10007d007dffc5007c00b7ffb5007c006bffb4007c000000aa007c000000a9007c00c1ff5b007c0000001d007c00dcff11007c00260010007c007dffc5007b00;
0x89000000a90089002600100089007dffc5007d00b7ffb5007d006bffb4007d000000aa007d000000a9007d00c1ff5b007d0000001d007d00dcff11007d002600;
0x2400a90090ffc5009000a4ffb5009000adffb40090000000aa0090000000a9009000000010009000adffc500890090ffb500890090ffb40089000000aa00;
0x3300a90000003200a90000002f00a90000002e00a900dcff2d00a90000002b00a900dcff2a00a90000002900a900dcff2700a900dcff2600a900dcff2500a900;
0xa90000005100a90000004900a90000003d00a9006bff3c00a90000003b00a900dcff3a00a90090ff3900a90090ff3700a90000003500a90000003400a9000000;
0x7a00a90000007900a90000007800a90000006700a900dcff6400a90000006200a900dcff5c00a900dcff5a00a900dcff5900a90000005500a90000005200;
0xc700a9006bffbb00a900dcffba00a9000000af00a9000000ae00a9000000ad00a90097009000a90000008900a90000007d00a90000007c00a90000007b00a900;
0xa900dcfff600a9000000ec00a900dcffeb00a9006bffea00a9000000e900a9000000e500a9000000d200a9000000d100a9000000d000a9000000c900a9000000;
0x2e00aa00dcff2d00aa0000002b00aa0000002a00aa0000002900aa00dcff2700aa00dcff2600aa00b7ff2500aa00b7ff2400aa00dcfffd00a900dcfffb00;
0x3d00aa001fff3c00aa0090ff3b00aa0090ff3a00aa004eff3900aa0044ff3700aa0000003500aa0000003400aa0000003300aa00dcff3200aa0000002f00aa00;
0xaa00dcff6700aa00dcff6400aa00b7ff6200aa00dcff5c00aa00dcff5a00aa00dcff5900aa0000005500aa0000005200aa0000005100aa0000004900aa000000;
0xdcffaf00aa00b7ffae00aa00b7ffad00aa0000009000aa0000008900aa0000007d00aa0000007c00aa0000007b00aa0000007a00aa0000007900aa0000007800;
0xeb00aa001fffea00aa000000e900aa000000e500aa00dcffd200aa00dcffd100aa00dcffd000aa00b7ffc900aa00b7ffc700aa001fffbb00aa00dcffba00aa00;
0xad00dcff2a00ad00dcff2600ad0039002400ad00dcff1d00ad00dcff1100ad00d3ff1000ad00dcfffd00aa00dcfffb00aa000000f600aa000000ec00aa00dcff;
0xdcff4700ad00dcff4600ad0061ff3c00ad0000003b00ad0090ff3a00ad007dff3900ad0000003800ad0061ff3700ad0000003600ad00dcff3400ad00dcff3200;
0x6400ad0039006200ad0075ff5c00ad00adff5a00ad0088ff5900ad0000005800ad00dcff5700ad00dcff5400ad00dcff5200ad00b7ff4900ad00dcff4800ad00;
0xad00dcff7b00ad00dcff7a00ad00dcff7900ad00dcff7300ad00dcff7200ad00dcff7100ad00dcff7000ad00dcff6f00ad0000006800ad00dcff6700ad00dcff;
0xdcffaf00ad003900ae00ad003900ad00ad000000aa00ad00b7ffa900ad0000008100ad0000008000ad0000007f00ad0000007e00ad00dcff7d00ad00dcff7c00;
0xd300ad00dcffd200ad00dcffd100ad00dcffd000ad003900c900ad003900c700ad002f00c500ad0061ffbb00ad0075ffba00ad0003ffb500ad00f8feb400ad00;
0xad00dcfffd00ad00dcfffc00ad00dcfffb00ad000000f900ad00dcfff600ad0075ffeb00ad0061ffea00ad000000e300ad000000d500ad000000d400ad000000;
0x61ff3700ae0000003600ae00dcff3400ae00dcff3200ae00dcff2a00ae00dcff2600ae0039002400ae00dcff1d00ae00dcff1100ae00d3ff1000ae00dcfffe00;
0x5400ae00dcff5200ae00b7ff4900ae00dcff4800ae00dcff4700ae00dcff4600ae0061ff3c00ae0000003b00ae0090ff3a00ae007dff3900ae0000003800ae00;
0xae00dcff6f00ae0000006800ae00dcff6700ae00dcff6400ae0039006200ae0075ff5c00ae00adff5a00ae0088ff5900ae0000005800ae00dcff5700ae00dcff;
0x7f00ae0000007e00ae00dcff7d00ae00dcff7c00ae00dcff7b00ae00dcff7a00ae00dcff7900ae00dcff7300ae00dcff7200ae00dcff7100ae00dcff7000;
0xbb00ae0075ffba00ae0003ffb500ae00f8feb400ae00dcffaf00ae003900ae00ae003900ad00ae000000aa00ae00b7ffa900ae0000008100ae0000008000ae00;
0xae000000e300ae000000d500ae000000d400ae000000d300ae00dcffd200ae00dcffd100ae00dcffd000ae003900c900ae003900c700ae002f00c500ae0061ff;
0xdcff1d00af00adff1100af0039001000af00dcfffe00ae00dcfffd00ae00dcfffc00ae00dcfffb00ae000000f900ae00dcfff600ae0075ffeb00ae0061ffea00;
0xb500af00d3ffb400af00dcffae00af00dcffad00af000000aa00af00dcffa900af00dcff6200af0090ff3c00af007dff3b00af00dcff3900af00dcff2400af00;
0xb400c1ff2900b400c1ff2700b400b7ff2600b400c1ff2500b400f8fe2400b40090ffea00af00dcffc900af00dcffc700af0044ffc500af0090ffbb00af00dcff;
0x3900b40000003700b400c1ff3500b400b7ff3400b400c1ff3300b400b7ff3200b400c1ff2f00b400c1ff2e00b400c1ff2d00b400c1ff2b00b400b7ff2a00;
0x5c00b400b7ff5a00b400b7ff5900b40090ff5500b4006bff5200b40090ff5100b400b7ff4900b400dcff3d00b40000003c00b40088ff3b00b40000003a00b400;
0xb400c1ff8900b4006bff7d00b4006bff7c00b4006bff7b00b4006bff7a00b4006bff7900b40090ff7800b400b7ff6700b400b7ff6400b400f8fe6200b400b7ff;
0xb7ffd200b400b7ffd100b400b7ffd000b400f8fec900b400f8fec700b4000000bb00b400b7ffba00b400b7ffaf00b400f8feae00b400f8fead00b4007dfe9000;
0x1d00ba00dcfe1100ba00dcff1000ba00b7fffd00b400b7fffb00b400b7fff600b400c1ffec00b400b7ffeb00b4000000ea00b400b7ffe900b400dcffe500b400;
0xbb0090ff2600bb0061ff2400bb00f0fe1d00bb0061fe1100bb000dff1000bb00d3fec500ba000000b500ba000000b400ba00dcffaa00ba00dcffa900ba006bff;
0xe6fe6a00bb00e6fe6900bb0090ff6700bb0090ff6400bb0061ff6200bb0015ff5800bb00f0fe5200bb00b7ff4c00bb00f0fe4800bb00e6fe4400bb0090ff3200;
0x7b00bb00f0fe7a00bb00f0fe7900bb00f0fe7300bb00f0fe7200bb00f0fe7100bb00f0fe7000bb00e6fe6e00bb00e6fe6d00bb00e6fe6c00bb00e6fe6b00bb00;
0xbb0061ffae00bb0061ffad00bb006bffaa00bb001fffa900bb0015ff8100bb0015ff8000bb0015ff7f00bb0015ff7e00bb00f0fe7d00bb00f0fe7c00bb00f0fe;
0x90fffd00bb0090fffb00bb0090ffd200bb0090ffd100bb0090ffd000bb0061ffc900bb0061ffc700bb00f8fec500bb00dcffb500bb0090ffb400bb0090ffaf00;
0x3200c500b7ff2f00c500b7ff2e00c5002f002d00c500b7ff2b00c500b7ff2a00c500b7ff2900c500b7ff2700c50090ff2600c500b7ff2500c50026002400c500;
0xc500dcff4900c50000003d00c50088fe3c00c500b7ff3b00c50003ff3a00c50088fe3900c500e6fe3700c500b7ff3500c50090ff3400c500b7ff3300c50090ff;
0xb7ff7900c500b7ff7800c50090ff6700c50090ff6400c50026006200c50090ff5c00c5003cff5a00c50015ff5900c500b7ff5500c500b7ff5200c500b7ff5100;
0xbb00c50090ffba00c50090ffaf00c5002600ae00c5002600ad00c50026009000c500b7ff8900c500b7ff7d00c500b7ff7c00c500b7ff7b00c500b7ff7a00c500;
0xc500b7ffec00c50090ffeb00c50088feea00c500b7ffe900c5000000e500c50090ffd200c50090ffd100c50090ffd000c5002600c900c5002600c700c50088fe;
0xdcff3400c700dcff3200c700dcff2a00c700dcff2600c70039002400c700dcff1d00c700dcff1100c700d3ff1000c70090fffd00c50090fffb00c500b7fff600;
0x4900c700dcff4800c700dcff4700c700dcff4600c70061ff3c00c70000003b00c70090ff3a00c7007dff3900c70000003800c70061ff3700c70000003600c700;
0xc700dcff6700c700dcff6400c70039006200c70075ff5c00c700adff5a00c70088ff5900c70000005800c700dcff5700c700dcff5400c700dcff5200c700b7ff;
0xdcff7d00c700dcff7c00c700dcff7b00c700dcff7a00c700dcff7900c700dcff7300c700dcff7200c700dcff7100c700dcff7000c700dcff6f00c70000006800;
0xb500c700f8feb400c700dcffaf00c7003900ae00c7003900ad00c7000000aa00c700b7ffa900c70000008100c70000008000c70000007f00c70000007e00c700;
0xc7000000d400c7000000d300c700dcffd200c700dcffd100c700dcffd000c7003900c900c7003900c700c7002f00c500c70061ffbb00c70075ffba00c70003ff;
0xd3ff1000c900dcfffe00c700dcfffd00c700dcfffc00c700dcfffb00c7000000f900c700dcfff600c70075ffeb00c70061ffea00c7000000e300c7000000d500;
0x3900c90000003800c90061ff3700c90000003600c900dcff3400c900dcff3200c900dcff2a00c900dcff2600c90039002400c900dcff1d00c900dcff1100c900;
0xc900dcff5700c900dcff5400c900dcff5200c900b7ff4900c900dcff4800c900dcff4700c900dcff4600c90061ff3c00c90000003b00c90090ff3a00c9007dff;
0xdcff7100c900dcff7000c900dcff6f00c90000006800c900dcff6700c900dcff6400c90039006200c90075ff5c00c900adff5a00c90088ff5900c90000005800;
0x8100c90000008000c90000007f00c90000007e00c900dcff7d00c900dcff7c00c900dcff7b00c900dcff7a00c900dcff7900c900dcff7300c900dcff7200c900;
0xc9002f00c500c90061ffbb00c90075ffba00c90003ffb500c900f8feb400c900dcffaf00c9003900ae00c9003900ad00c9000000aa00c900b7ffa900c9000000;
0x75ffeb00c90061ffea00c9000000e300c9000000d500c9000000d400c9000000d300c900dcffd200c900dcffd100c900dcffd000c9003900c900c9003900c700;
0x3900d000dcff2400d000dcff1d00d000adff1100d00039001000d000dcfffe00c900dcfffd00c900dcfffc00c900dcfffb00c9000000f900c900dcfff600c900;
0xd00090ffbb00d000dcffb500d000d3ffb400d000dcffae00d000dcffad00d0000000aa00d000dcffa900d000dcff6200d00090ff3c00d0007dff3b00d000dcff;
0x90ff3c00d1007dff3b00d100dcff3900d100dcff2400d100dcff1d00d100adff1100d10039001000d10090ffea00d000dcffc900d000dcffc700d00044ffc500;
0xc900d100dcffc700d10044ffc500d10090ffbb00d100dcffb500d100d3ffb400d100dcffae00d100dcffad00d1000000aa00d100dcffa900d100dcff6200d100;
0xd200dcffa900d200dcff6200d20090ff3c00d2007dff3b00d200dcff3900d200dcff2400d200dcff1d00d200adff1100d20039001000d20090ffea00d100dcff;
0x2400d30090ffea00d200dcffc900d200dcffc700d20044ffc500d20090ffbb00d200dcffb500d200d3ffb400d200dcffae00d200dcffad00d2000000aa00;
0x3d00d40000002d00d40000002400d400dcffe500d3000000c900d3000000c700d3000000ae00d3000000ad00d30000006200d300dcff3d00d30000002d00d300;
0xd50000006200d500dcff3d00d50000002d00d50000002400d500dcffe500d4000000c900d4000000c700d4000000ae00d4000000ad00d40000006200d400dcff;
0x3600e30000003400e30000003200e30000002a00e30000002600e30026002400e300dcffe500d5000000c900d5000000c700d5000000ae00d5000000ad00;
0xd200e3000000d100e3000000d000e3002600c900e3002600c700e3000000af00e3002600ae00e3002600ad00e30000006700e30000006400e30026006200e300;
0xe500dcffb500e500dcffb400e5000000aa00e5000000a900e500dcff1000e5000000fd00e3000000fb00e3000000f900e3000000f600e3000000e300e3000000;
0x61ff2400ea00f0fe1d00ea0061fe1100ea000dff1000ea00b7ffc500e90090ffb500e900a4ffb400e9000000aa00e9000000a900e90000001000e900dcffc500;
0x6900ea0090ff6700ea0090ff6400ea0061ff6200ea0015ff5800ea00f0fe5200ea00b7ff4c00ea00f0fe4800ea00e6fe4400ea0090ff3200ea0090ff2600ea00;
0xea00f0fe7900ea00f0fe7300ea00f0fe7200ea00f0fe7100ea00f0fe7000ea00e6fe6e00ea00e6fe6d00ea00e6fe6c00ea00e6fe6b00ea00e6fe6a00ea00e6fe;
0x61ffad00ea006bffaa00ea001fffa900ea0015ff8100ea0015ff8000ea0015ff7f00ea0015ff7e00ea00f0fe7d00ea00f0fe7c00ea00f0fe7b00ea00f0fe7a00;
0xfb00ea0090ffd200ea0090ffd100ea0090ffd000ea0061ffc900ea0061ffc700ea00f8fec500ea00dcffb500ea0090ffb400ea0090ffaf00ea0061ffae00ea00;
0xec0000001000ec00d3fec500eb000000b500eb000000b400eb00dcffaa00eb00dcffa900eb006bff1d00eb00dcfe1100eb00dcff1000eb0090fffd00ea0090ff;
0x3a00f600b7ff3700f60000002400f60000001000f60044ffc500ec000000b500ec00dcffb400ec000000aa00ec000000a900ec00b7ff1d00ec006bff1100;
0xc700f600c9ffc500f6009affbb00f600d3ffb500f600d3ffb400f6000000ae00f6000000ad00f600dcffaa00f600dcffa900f60000006200f6009aff3c00f600;
0xf90000006400f90026006200f90000003600f90000003400f90000003200f90000002a00f90000002600f90026002400f9009affea00f6000000c900f6000000;
0xf600f9000000e300f9000000d200f9000000d100f9000000d000f9002600c900f9002600c700f9000000af00f9002600ae00f9002600ad00f90000006700;
0xad00fb00dcffaa00fb00dcffa900fb0000006200fb00dcff3c00fb0000003600fb0000002400fb0000001000fb000000fd00f9000000fb00f9000000f900f900;
0xfd000000f900fb00dcffea00fb000000e300fb000000c900fb000000c700fb000000c500fb00dcffbb00fb002600b500fb000000b400fb000000ae00fb000000;
0x2600b500fd000000b400fd000000ae00fd000000ad00fd00dcffaa00fd00dcffa900fd0000006200fd00dcff3c00fd0000003600fd0000002400fd0000001000;
0x4000100002000400420007004d000c010000010000000000f900fd00dcffea00fd000000e300fd000000c900fd000000c700fd000000c500fd00dcffbb00fd00;
0xcc0447050400050090010e0401000c01000000000000000000000000000001004c0a89fe89febc0a00001dfe6d0700000100010003006805150400000700;
0xe3016d079a0114fe140602fb200040007374694200000000000000004a200010af00008004020204080303060b02020866028f0053020000cc04470542fe;
0x400000303052383236feffff36ffffffff0000000000000000736e6153617265560000d5056323000060048b02b11d0042000001000000000000000100;
0x607060707080506030307070606070707060a05080808030306060606060606060606030303030805040402080906080403030300050c091001000014000000;
0x3030606060606060606060606070707060706060805030506050507050604050406060606090305030306060306060606060505080403040505060706070507;
0x5050905090a07060606090606060806060803050609070404050507060506060808080807090805050909090606050506060505060606060606060606060303;
0x9090904040408080606050506070306050507030505050505050505050505030707070707070303030306060606060c05030305060604040602050504080303;
0x7070b05080808030306060606060606060606030304030805040403090a06080504030300060d0a000005050405050505050506030306060706070507030607;
0x708070708060306050606080606040504060606060a020502020606040606050606050508040304060706090708050707080708080906070303080806070808;
0x6080405060a0805050506080705070608080808080a0805050a0a0a060606050606050506060606060606060606020202020606060605060606060606080808;
0x60507020605050505050505050505020808080808080303030307070707070d0503030506060404060207060508030305050a050a0b080707060a0606070806;
0x707070404040409060404030a0a07090503030300070f0b0000050504050505050505060304060508050805070306080a0a0a04040408080607060706080305;
0x5070707070b03060303070704070706070706060904040409070709070807080709070908090607030308090607080808070c06090909040407070707070707;
0x9090909090b0906060b0b0b07070606070706060707070707070707070703030303070707070607070707070708090807080707090704070506060906070407;
0x808080909090303030307070707070f0604040607070404070207060509040406060b060b0c090707070b070707090707090306070b08050506060807060707;
0x50504040007100c0000060604060606060606070404070608060807080307090b0b0b0404040909070706070708040509070803060606060606060606060603;
0x80806060a0504050907090b0809070808090809090a0607030309090708090808080d060a0a0a040408080808080808080808040404040a060505030a0b080a;
0x808060608080808080808080808030303030808080807080808080808090909080808080a080408050606090608050705080808080b03070303080804080807;
0x60404060707050508020706060a040406060c060d0d090808080c0707080a08080a0506080c090606060709080608080a0a0a0a090c0a06060c0c0c08080706;
0x60606080404080708070807080308090c0c0c0505050a0a08080607080904050907080306060606060606060606060309090909090903030303080808080810;
0x80a080a0a0b070803030a0a07080a0909090d070b0b0b040408080808080808080808040405040b070505030b0c080b050504040008110d0000060605060606;
0x30308080808070808080808080a0a0a080909090b080408070707090708050705080808080d03070303080804080807080807070b0504050a070a0b090a0709;
0x7070d070d0e0a0909080d0808090b08080b0507080d0a060607080a090708080b0b0b0b0a0d0b07070d0d0d0808080708080707080808080808080808080303;
0xd0d0d0505050b0b08080707080a04070a0709030707070707070707070707030a0a0a0a0a0a03030303080809080911070404070808050508020707060b0404;
0xa090e070c0c0c050509090909090909090909050405040c070505030c0d090c050504040008130e00000707050707070707070804050807090709070903080a;
0x90a09090c0905090807070b0709050805090909090d03080303090904090908090807070c0505050a090b0d090a09090a0b090b0a0c070903030a0b08090b0a;
0x90c0507090e0b070707080b090709090c0c0c0c0b0e0c07070e0e0e0909080709090707090909090909090909090303030309090909080808080808080a0b0a;
0xa0809030707070707070707070707030a0a0a0b0b0b03030303090909090913070404070808060609020907070c040407070e070f0f0b0909090e0909090c09;
0xa0a0a050505050d080606030b0e0a0d060605050009140f000007070607070707070709040509080a080a080903090b0e0e0e0606060c0c09090709090b0508;
0x6090909090f03080303090905090908090908080d0605060b090a0f0a0b090a0a0c090c0b0d080a03030b0c09090b0a0a0a0f080d0d0d05050a0a0a0a0a0a0a;
0xd0d0d0d0c0f0d08080f0f0f090a09080a0a0808090909090909090909090303030309090909080909090909090b0c0b090a0a0a0d0a050a08080a0d08090608;
0xb0b0b0c0c0c0303030309090a090a1408050508090906060a030908070d050508080f080f100c0a0a0a0f09090a0d0a0a0d0608090f0b070708090b0a08090a;
0x6060505000a151000000808060808080808080a050509080a080a080a03090c0f0f0f0606060d0d09090809090c05080b080a03080808080808080808080803;
0xa0908080d0605060c090b110b0c090a0b0d0a0d0c0d090a05050c0c090a0c0b0b0b10090d0d0d05050a0a0a0a0a0a0a0a0a0a050506050d080606030c0f0a0d;
0xa0a08080a0a0a0a0a0a0a0a0a0a0303030309090909090909090909090c0d0c0a0b0b0b0d0a050a09090a0d090a0609070a0a0a0a0f030903030a0a06090a09;
0x80505080a0a06060a030909080d0505080810080f110d0b0b0a100a0a0b0d0a0a0d06090a100c080808090c0b080a0a0d0d0d0d0d100d08081010100a0a0908;
0x808080a05060a090b090b090a050a0c1010100606060d0d0a0a09090a0d05090c090a040908080808080808080808030c0c0c0d0d0d050505050a0a0b0a0b15;
0xc0d0a0d0d0f090c06060d0d0a0b0d0c0c0b11090e0e0e06060b0b0b0b0b0b0b0b0b0b060506050e090707050d100b0e08070505000a17110000080806080808;
0x5050a0a0a0a080a0a0a0a0a0a0d0d0d0b0c0b0b0e0b060b080a0a0f0a0b0708070a0a0a0b11050a05050b0a060a0a080a0a09090e0706070c0a0d120b0d0a0b;
0x909110911120d0b0b0b110a0a0b0e0b0b0e07090a100d0808090a0d0b090b0b0e0e0e0e0d100e09091111110b0b0a090b0b09090b0b0b0b0a0a0a0a0a0b0505;
0x1010100707070e0e0a0a0a0a0a0d06080c080b050a09090909090909090909050d0d0d0d0d0d060606060b0b0b0b0b17090505090a0a07070b030a0a080e0505;
0xc0c120a0f0f0f06060b0b0b0b0b0b0b0b0b0b060607060f090707040d110b0f08070606000b181200000909070909090909090b05060a080c080c080b060a0d;
0xb0d0c0c0f0b060b090b0b100b0b0708080b0b0b0b11050a05050b0b060b0b090b0a09090f0706070d0c0d130c0e0c0b0d0e0b0e0e100a0c06060e0e0a0b0e0d;
0xb0f070a0b110e0808090b0e0c090b0b0f0f0f0f0e110f09091212120b0b0b090b0b09090b0b0b0b0b0b0b0b0b0b050505050b0b0b0b090a0a0a0a0a0a0e0e0e;
0xd080b050a09090909090909090909050e0e0e0e0e0e060606060b0b0c0b0c18090606090b0b07070b030c0b090f06060909120913130e0c0c0b120b0b0c0f0b;
0xc0c0c06060706100a0707040e120c1008080606000b1a1300000909070909090909090b06070b090d090d080b060b0e1111110707070f0f0b0b0b0c0b0e0609;
0x80b0b0b0c11050b05050c0b060b0b090b0b0a0a100706070d0c0e140d0e0c0c0d0f0c0f0e100b0c06060e0f0b0c0f0d0d0d130a10101006060c0c0c0c0c0c0c;
0x101010100f12100a0a1313130c0c0b0a0c0c0a0a0c0c0c0c0b0b0b0b0b0c050505050b0b0b0b090b0b0b0b0b0b0e0f0e0c0d0d0d100c060c0b0b0b110b0c0809;
0xe0e0e0f0f0f060606060c0c0d0c0d1a0a06060a0b0b08080c030c0b091006060a0a130a13140f0d0d0c130c0c0d100c0c10080a0b120f09090a0b0e0d0a0c0c;
0xa080606000c1b1400000a0a080a0a0a0a0a0a0c06070b090d090d090c060b0f12121208080810100b0c0b0c0b0f060b0d090c050b0a0a0a0a0a0a0a0a0a0a05;
0xd0c0a0a110807080e0c0e140e0f0c0d0e100c100f110b0d06060f100c0d0f0e0e0e140b11111107070d0d0d0d0d0d0d0d0d0d07060706110a0808060f130d11;
0xd0d0a0a0d0d0d0d0c0c0c0c0c0d060606060c0c0c0c0b0c0c0c0c0c0c0f100f0d0e0e0e110d070d0b0b0b110b0d080a080d0d0c0d14060c06060d0d070c0d0b;
0xa06060a0d0d08080d030c0b0a1106060a0a140a1415100e0e0d140c0c0d110d0d11080b0c130f09090a0c0f0d0a0d0d111111111014110a0a1414140d0d0c0a;
0xa0a0a0d06070d0b0e0b0e0a0d060d1013131308080811110d0c0b0c0c0f070b0e0a0d060b0a0a0a0a0a0a0a0a0a0a060f0f0f101010060606060d0d0e0d0e1b;
0xf110d1110120c0e060610100c0d100f0e0e150b12121207070d0d0d0d0d0d0d0d0d0d07070807120b08080610140d120a080707000d1c1500000a0a080a0a0a;
0x6060d0d0d0d0c0d0d0d0d0d0d0f11100d0f0e0e120d070d0b0d0d110b0e080b090d0d0d0e14060c06060d0d070d0d0c0d0d0b0b120807080e0d0e150e0f0d0d;
0xb0b150b1616110e0e0d150d0d0e120d0d12080b0d14100a0a0b0c100e0b0e0d121212121114120b0b1515150d0d0c0b0d0d0b0b0e0e0e0e0d0d0d0d0d0e0606;
0x14141408080812120d0d0d0d0d10070b0e0b0d060c0b0b0b0b0b0b0b0b0b0b060f0f0f111111060606060d0d0e0d0e1c0b07070b0d0d08080d040d0d0a120707;
0xf0f160c12121207070e0e0e0e0e0e0e0e0e0e07070807120b09090611150e120a090707000d1e1600000b0b080b0b0b0b0b0b0d07080d0c0f0c0f0b0d060d10;
0xe0f0f0f120e070e0c0e0e120e0e090b090e0e0d0e16060d06060e0e080d0e0c0e0d0b0b120907090f0d0f160f100d0e0f110d1110130c0e060611110d0e110f;
0xe12090c0d15110a0a0b0d110f0b0e0e121212121115120b0b1616160e0e0d0b0e0e0b0b0e0e0e0e0d0d0d0d0d0e060606060d0d0d0d0c0d0d0d0d0d0d101110;
0xf0b0e060c0b0b0b0b0b0b0b0b0b0b06101010111111060606060e0e0f0e0f1e0b07070b0d0d09090e040d0e0b1207070b0b160b1618110f0f0e160d0d0f120e;
0xf0f0f08070807130c09090612160f130b090707000e1f1700000b0b090b0b0b0b0b0b0e07080e0c0f0c0f0b0e060e1115151509090912120e0d0e0d0d11070c;
0x90e0e0e0f16060d06060f0f080e0f0d0f0e0c0c13090809100e101710110e0f10120e1211140d0f070711120d0f12101010170c13131308080f0f0f0f0f0f0f;
0x131313131216130c0c1717170e0f0e0c0f0f0c0c0f0f0f0f0e0e0e0e0e0f060606060e0e0e0e0d0e0e0e0e0e0e1112110f101010130f080f0c0e0e130e0f090c;
0x111111121212070707070f0f100f101f0c07070c0f0f09090f040e0e0b1307070c0c170c18191210100f170e0e0f130f0f13090c0e15120b0b0c0e11100c0f0f;
0xb0a0808000e201800000c0c090c0c0c0c0c0c0f07080f0d100d100c0f070f1216161609090913130e0e0e0e0e12080c100c0f060d0c0c0c0c0c0c0c0c0c0c06;
0xf0e0c0c14090809100f101810120f0f11130e1312150d10070712130e0f12111010180d14141408080f0f0f0f0f0f0f0f0f0f08080908140c09090713170f14;
0xf0f0c0c0f0f0f0f0e0e0e0e0e0f070707070e0e0e0e0d0e0e0e0e0e0e1213120f111010140f080f0d0f0f140f0f090c0a0f0f0e0f18060e07070f0f080e0f0d;
0xc08080c0f0f0a0a0f040f0f0c1408080c0c180c181a1310100f180f0f10140f0f140a0d0e17120b0b0d0e12100c0f0f141414141317140c0c1818180f0f0e0c;
0xc0c0c0f08090f0d110d110c0f070f131717170a0a0a14140f0f0f0f0e13080d100c0f060d0c0c0c0c0c0c0c0c0c0c07121212131313070707070f0f100f1020;
0x11140f1413160e10070713130e1013111111190d15151508081010101010101010101008080908150d0a0a07141810150c0a0808000f221900000c0c0a0c0c0c;
0x7070f0f0f0f0e0f0f0f0f0f0f12141310111111151008100d0f0f140f100a0d0a10100f1018070e07071010090f100e100f0d0d150a080a110f111911120f10;
0xd0d190d1a1b14111110190f0f11151010150a0d0f19130c0c0d0f13110d1010151515151418150d0d19191910100f0d10100d0d101010100f0f0f0f0f100707;
0x1818180a0a0a1515100f0f0f0f13080d110d10070e0d0d0d0d0d0d0d0d0d0d07121212141414070707071010111011220d08080d10100a0a10040f0f0c150808;
0x12121a0e16161609091111111111111111111109080908160d0a0a07141911160c0a08080010231a00000d0d0a0d0d0d0d0d0d100809100e110e110d10071013;
0x10121212161109110e0f0f150f100a0e0b1111101019070f070710110910110e11100d0d160a090a1210121a121310111214101413160e11080814140f101412;
0x11160a0e101a140c0c0e0f14120d1111161616161419160d0d1a1a1a10110f0d11110d0d1010101010101010101007070707101010100e101010101010131413;
0x120e11070f0d0d0d0d0d0d0d0d0d0d07131313141414080808081010121012230d08080d10100a0a1104100f0d1608080d0d1a0d1b1c141212111a1010111611;
0x11111109090a09170e0b0b07151a11170c0b09090010241b00000d0d0a0d0d0d0d0d0d110809110e120e120e110811141919190a0a0a161611100f101014090e;
0xb111111111a0810080811110a11110f11110e0e170b090b1311131b121411111315101514170f12080814151011151313121b0e171717090911111111111111;
0x17171716151a170e0e1b1b1b1111100e11110e0e1111111111111111111108080808111111110f11111111111114151411131212171109110e10101610110b0e;
0x141414151515080808081111121112240e09090e11110b0b110511100d1709090e0e1b0e1c1d151212111b111112171111170b0e111b150d0d0e1014120e1111;
0xd0b09090011261c00000e0e0b0e0e0e0e0e0e11090a110f130f130e110811151a1a1a0b0b0b1717111010111115090e130e11080f0e0e0e0e0e0e0e0e0e0e08;
0x12110e0e170b090b1311131c131511121316111615181012080815161012161413131c0f17171709091212121212121212121209090a09170e0b0b08161b1217;
0x12120e0e1212121211111111111208080808111111110f11111111111115161512141313171209120f11111711120b0f0c121211121b0810080812120a11120f;
0xf09090e12120b0b120511110e1709090f0f1c0e1d1e161313121c111113171212170b0f111c150d0d0f1015130e121217171717161b170e0e1c1c1c1212110e;
0xe0e0e12090a120f140f140f120812161b1b1b0b0b0b1717121111111116090f130f1208100e0e0e0e0e0e0e0e0e0e0815151516161608080808121213121326;
0x6d074c0a1dfe89fe9167c2ba00000000b8f0b9ba0000000000081f00f53c0f5fec0a500c00000200000001000300ffff020008000200000000000e0e0b0e0e0e;
0x10008000000].
