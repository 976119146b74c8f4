(** Tables of the fonts in tests/fixtures, generated by tools/gen_fixtures.py.

    Each numeral is a run of 32 bytes, the last one of the rest. *)

From Verif Require Export Encode.

Fixpoint run (k : nat) (n : N) (rest : list byte) : list byte :=
  match k with
  | O => rest
  | S k => run k (n / 256) (byte_of (n mod 256) :: rest)
  end.

Fixpoint runs (size : nat) (l : list N) : list byte :=
  match l with
  | [] => []
  | n :: l => run (Nat.min size 32) n (runs (size - 32) l)
  end.

(** GSUB of tests/fixtures/SourceSerifPro-Regular.otf: 2762 bytes at 57648. *)
Definition source_serif_gsub : list byte := runs (N.to_nat 2762) [
  0x00010000000a00ec04c8000244464c54000e6c61746e0036000400000000ffff;
  0x000f00000005000a000f0014001900210026002b00300035003a003f00440049;
  0x00160003415a4520003a43525420006054524b2000860000ffff000f00010006;
  0x000b00100015001a00220027002c00310036003b00400045004a0000ffff0010;
  0x00020007000c00110016001b001e00230028002d00320037003c00410046004b;
  0x0000ffff001000030008000d00120017001c001f00240029002e00330038003d;
  0x00420047004c0000ffff001000040009000e00130018001d00200025002a002f;
  0x00340039003e00430048004d004e61616c7401d661616c7401de61616c7401e6;
  0x61616c7401ee61616c7401f66361736501fe63617365020463617365020a6361;
  0x73650210636173650216646e6f6d021c646e6f6d0222646e6f6d0228646e6f6d;
  0x022e646e6f6d023466726163023a66726163024466726163024e667261630258;
  0x6672616302626c696761026c6c69676102726c69676102786c696761027e6c69;
  0x676102846c6e756d028a6c6e756d02906c6e756d02966c6e756d029c6c6e756d;
  0x02a26c6f636c02a86c6f636c02ae6c6f636c02b46e756d7202ba6e756d7202c0;
  0x6e756d7202c66e756d7202cc6e756d7202d26f6e756d02d86f6e756d02de6f6e;
  0x756d02e46f6e756d02ea6f6e756d02f06f72646e02f66f72646e02fc6f72646e;
  0x03026f72646e03086f72646e030e706e756d0314706e756d031a706e756d0320;
  0x706e756d0326706e756d032c73696e66033273696e66033873696e66033e7369;
  0x6e66034473696e66034a73756273035073756273035673756273035c73756273;
  0x036273756273036873757073036e73757073037873757073038273757073038c;
  0x737570730396746e756d03a0746e756d03a6746e756d03ac746e756d03b2746e;
  0x756d03b87a65726f03be7a65726f03c47a65726f03ca7a65726f03d07a65726f;
  0x03d6000000020000000100000002000000010000000200000001000000020000;
  0x0001000000020000000100000001000300000001000300000001000300000001;
  0x0003000000010003000000010005000000010005000000010005000000010005;
  0x0000000100050000000300040006000700000003000400060007000000030004;
  0x0006000700000003000400060007000000030004000600070000000100110000;
  0x0001001100000001001100000001001100000001001100000001000f00000001;
  0x000f00000001000f00000001000f00000001000f000000010002000000010002;
  0x0000000100020000000100040000000100040000000100040000000100040000;
  0x0001000400000001000d00000001000d00000001000d00000001000d00000001;
  0x000d000000010008000000010008000000010008000000010008000000010008;
  0x00000001000e00000001000e00000001000e00000001000e00000001000e0000;
  0x0001000b00000001000b00000001000b00000001000b00000001000b00000001;
  0x000b00000001000b00000001000b00000001000b00000001000b000000030008;
  0x0009000a0000000300080009000a0000000300080009000a0000000300080009;
  0x000a0000000300080009000a00000001000c00000001000c00000001000c0000;
  0x0001000c00000001000c00000001001000000001001000000001001000000001;
  0x0010000000010010001300280030003800400048005000580060006c0074007c;
  0x0084008c0094009c00a400ac00b400bc00010000000102be0003000000010336;
  0x000100000001008c000100000001008a00010000000100ac00010000000100c6;
  0x00010000000100e000060000000300de00f00102000100000001010a00010000;
  0x00010140000100000001015a0001000000010160000100000001017a00010000;
  0x000101a000010000000101c600010000000101ec000100000001021200040000;
  0x0001021000010000000103a4000103c2007f000203c200120108010b01270128;
  0x0129012a012b012c012d012e012f0130013101320133013401350145000203c0;
  0x000e01750176017701780179017a017b017c017d017e01810182017f01800002;
  0x039e000e016701680169016a016b016c016d016e016f01700173017401710172;
  0x0001039200770003000103920001039c00000001000000120003000103920001;
  0x03a200000001000000120003000203a4039a0001039000000001000000120002;
  0x0398001c01850186018701880189018a018b018c018d018e018f019001910192;
  0x0193019401950196019701980199019a019b019c019d019e019f01a000020300;
  0x000e014701480149014a014b014c014d014e014f015001530154015101520002;
  0x034800040155015601570158000202d0000e0159015a015b015c015d015e015f;
  0x016001610162016501660163016400020324001400d700d800d900da00db00dc;
  0x00dd00de00df00e000ed00ee00ef00f000f100f200f300f400f500f600020306;
  0x001400ed00ee00ef00f000f100f200f300f400f500f600f700f800f900fa00fb;
  0x00fc00fd00fe00ff0100000202e8001400e200e300e400e500e600e700e800e9;
  0x00ea00eb00f700f800f900fa00fb00fc00fd00fe00ff0100000202ca001400d7;
  0x00d800d900da00db00dc00dd00de00df00e000e200e300e400e500e600e700e8;
  0x00e900ea00eb000102a6000a000102a80001000800030008000e001400d30002;
  0x002400d40002002700d50002002f0002028c003d01850186018701880189018a;
  0x018b018c018e018f0190019101920193019401950196019701980199019a019b;
  0x019c019d019e019f01a000f700f800f900fa00fb00fc00fd00fe00ff010000f7;
  0x00f800f900fa00fb00fc00fd00fe00ff010001550108010b012701280129012a;
  0x012c012f013201330134013501450001025e0012002a0030003e004c005a0068;
  0x00760084009200a000ae00bc00c600d000d600dc00e200ee000200a3018d0006;
  0x017501670147015900e200ed0006017601680148015a00e300ee000601770169;
  0x0149015b00e400ef00060178016a014a015c00e500f000060179016b014b015d;
  0x00e600f10006017a016c014c015e00e700f20006017b016d014d015f00e800f3;
  0x0006017c016e014e016000e900f40006017d016f014f016100ea00f50006017e;
  0x01700150016200eb00f600040181017301530165000401820174015401660002;
  0x0156012b00020157012d00020158012e0005017f017101510163013000050180;
  0x01720152016401310002018c001001b0016701680169016a016b016c016d016e;
  0x016f0170017101720173017401b100010001002400020006010701070000010a;
  0x010a00010114011b0002011d011d000a01210126000b01440144001100020003;
  0x00d700e0000001010102000a01210122000c000100010136000200010175017e;
  0x000000010002000101ae0002000201670174000001ab01ad000e000200010175;
  0x01820000000200010167017000000001000201b001b100020002001c00350000;
  0x00920093001a0001000401030118011a011b0002000200e200eb000000f70100;
  0x000a0002000200d700e0000000e200eb000a0002000200d700e0000000ed00f6;
  0x000a0002000100ed010000000001000200d700e20001000100210002000d001c;
  0x0023000000250035000800920093001900e200eb001b00ed00f6002501030103;
  0x002f010701070030010a010a0031011401170032011901190036011d011d0037;
  0x01230126003801440144003c0002000600240024000000d700e0000101010102;
  0x000b01180118000d011a011b000e012101220010000200030001000100000175;
  0x0182000101ae01ae000f].

(** GPOS of tests/fixtures/SourceSerifPro-Regular.otf: 24440 bytes at 60412. *)
Definition source_serif_gpos : list byte := runs (N.to_nat 24440) [
  0x00010000000a006400d4000244464c54000e6c61746e001c000400000000ffff;
  0x00020000000500160003415a4520002043525420002a54524b2000340000ffff;
  0x0002000100060000ffff0002000200070000ffff0002000300080000ffff0002;
  0x00040009000a6b65726e003e6b65726e00446b65726e004a6b65726e00506b65;
  0x726e005673697a65005c73697a65006073697a65006473697a65006873697a65;
  0x006c000000010000000000010000000000010000000000010000000000010000;
  0x00220000001e0000001a00000016000000120000000100040002000000020014;
  0x0b920064000000000000000000015508000400000041008c009600dc01260160;
  0x0166019401f2024c026a027c029602cc0302032c040e0414041a04200426042c;
  0x043e0450048e049804c604e00656069806b206ec07060730076607cc0802080c;
  0x0846085c08760894089a08cc09060918091e0940098a09c40a1e0a480a5e0a74;
  0x0a8e0aa00ab60ac00ac60adc0b020b300b520b5c0b660b7400020017ffe20018;
  0xffe20011000bfff10017ffce0018ffd80019ffe2002bfff60033fff6003fffce;
  0x00d2fff600e3ffed00e4ffec00e5fff600e9fff500ebfff60120ffea0136ffeb;
  0x0138ffec018e003d0012002bffd80033ffe1003fff7e009fffff00d2000900d6;
  0xfff400e4fff600e5fff500e6ffe000e7ffeb00e9000a011fffec0120ff870136;
  0xffc30138000a0144ffea0145fff5018e0015000e0025fff6002bffd80033ffeb;
  0x003fffcd00e3ffec00e4fff500e5ffec00e6ffd800e7fff500ebffec0120ffb9;
  0x0136ffe00144fff5018e001e0001009fffff000b000bfff60017fff60018fff6;
  0x0019ffec003fff9200e6ffeb0120ff720136ffcd0138000a01450009018e001f;
  0x00170001ffd90025ffeb002bffba0033ffba003fff6b0086ffd00087ffc400a0;
  0x001d00d6ffd600e3ffec00e4ffe200e5ffeb00e6ffaf00e7ffe100e9000a00eb;
  0xffec011fffd70120ff5f0136ffa60138000a0144ffcc0145ffd8018e00270016;
  0x0001ffd90025ffec002bffbb0033ffcd003fff7e0086ffd00087fffe00a00028;
  0x00d6ffdf00e3ffec00e4ffd800e5ffeb00e6ffb900e7ffe100ebffe2011fffd7;
  0x0120ff7c0136ffa60138000a0144ffcc0145ffd8018e001e00070025ffed002b;
  0xffe200e5fff600e6ffd700ebffec011fffd80145fff600040086ffc60087fffe;
  0x009dffed009fffed00060087000200960002009d003c009f000100a0005600b3;
  0x0001000d0017fff50018fff50019fff6003ffff600e6fff600fafff600fbfff6;
  0x00fcfff600fe00090100fff60120ffe10136fff6018e0029000d000b00200017;
  0xffb10018ffbb0025002100e3fff600e4fff600e5fff500e9ffeb00f9fff60102;
  0x0026010400280138fff5018e001f000a000bffeb0017ffba0018ffcd002bffec;
  0x0033000500d2fff500e6fff500e9ffeb00fe0009018e001c00380015ffd00017;
  0xffc70018ffc7001affc70071ffd00072ffd00073ffd0007cffc7007dffc7010c;
  0xffbc010dffbc010f000101110001013affc60141ffc60142ffff0143ffff0147;
  0xffbd0148ffbd0149ffbd014affbd014bffbd014cffbd014dffbd014effbd014f;
  0xffbd0150ffbd0183ffc70184ffc70185ffc70186ffc60187ffc70188ffc70189;
  0xffc7018affc6018bffc7018cffc6018dffc6018fffc60190ffc60191ffc60192;
  0xffc60193ffc70194ffc70195ffc70196ffc60197ffc70198ffc70199ffc7019a;
  0xffd1019bffd1019cffc6019dffc7019effc6019fffc701a0ffc70001009fffff;
  0x0001009fffff0001009fffff0001009fffff0001009fffff00040086ffc60087;
  0xfffe009dffed009fffed00040086ffc60087fffe009dffed009fffed000f000b;
  0xfff50017ffc40018ffc40019ffc4003fffb000d2ffec00e3ffed00e4fff500e5;
  0xffec00e9ffe10120ff730136ffe10138ffeb01450013018e0046000200310001;
  0x00320001000b000bffec0017ffd80018ffd8002bffe300e3fff600f8fff600fa;
  0xfff500feffeb0100fff60120ffec018e002a00060087000200960002009d003c;
  0x009f000100a0005600b30001005d000300020005000200060002000700020009;
  0x0002000a0002000b0001000c0002000d0002000e0002000f0002001100020013;
  0x000200150002001600020017000300180003001a0003001b0002001d00110023;
  0x0011002600110027001100430002004400020045000200460002004700020048;
  0x000200490002004a0002004b0002004c00020050000200510002005200020053;
  0x0002005400020055000200560002005700020058000200590002005a0002005b;
  0x0002005c0002005d0002005e0002005f000200600002006a0002006b0002006c;
  0x0002007100020072000200730002007400020075000200760002007700020078;
  0x000200790002007a0002007b0002007c0003007d0003007e0002007f00020080;
  0x0002008100020082000200a5001100a6001100a7001100a8001100a90011010c;
  0x001f010d001f010e0015010f000201100015011100020122001f0124001f0126;
  0x001f0131001f0133001f0135001f013800290142003101430031022100020222;
  0x00110010000bfff50017ffd80018ffe10019ffe100250009002bfff7003fffd8;
  0x00d2ffed00e3fff600e4ffec00e5fff600fafff600fbffec0120ffba0136ffe1;
  0x018e00340006000bfff60017ffba0018ffc300e6ffe300e7fff600e9ffec000e;
  0x0017ffd80018ffd8002bffec00e6ffec00e7fff600e9ffec00ebffec011fffe3;
  0x01a1ffc601a3ffed01a5fff601a6fff601a7ffec01a9ffd000060017ffeb0018;
  0xffeb002bffec00e6ffec011fffed018e0028000a0017ffe10018ffe1002bfff6;
  0x003ffff500d6001400e6000a0120ffe301440013018e004701a1ffec000d0017;
  0xfff60018fff6002bfff6003ffff500d6000a00e7fff600e9fff500ebffec0120;
  0xffe20136ffec018e003c01a3fff601a8ffe30019002bffe20033ffec003fffaf;
  0x00d6ffe000e4ffeb00e5ffeb00e6ffcc00e7ffd700ebffec011fffe20120ff7e;
  0x0136ffba013800130144ffd70146ffec018e002901a3ffec01a4ffec01a5000b;
  0x01a6ffe201a7ffe201a8ffb001c5ffd801c6ffeb01c7ffec000d000bffeb0017;
  0xffd80018ffd80019ffe2002bfff6003fffc300e7ffe200e9ffec0120ff9d0136;
  0xffbb018e003401a3fff601a8ffce00020120ffe2018e0051000e0025fff6002b;
  0xffec00d2ffec00f8ffed00f9fff600feffe20100ffec011fffcf0138ffe201a1;
  0xffc601a5fff601a6ffed01a7ffec01a9ffd90005002bfff6011fffec0138ffec;
  0x018e001601a9ffec0006002bfff600d2fff60120fff60138ffec018e002001a9;
  0xfff6000700d6001300fb000a013600140138ffe201440013018e001f01a1ffec;
  0x0001018e001f000c00f9fff500fafff400fbffd600fcffea0120ffa60136ffd8;
  0x018e003301a1001401a8ffd701c5ffed01c6ffed01c7ffed000e002bfff600d2;
  0xfff600f8ffec00faffec00fbffec00fcffec00fefff50100ffed0120ffc50136;
  0xffed0138ffec018e003e01a1ffed01a8ffec0004000b00160017ffcd0018ffd7;
  0x0025002000010136ffb00008000b00160017ffc40018ffd70019ffec00250029;
  0x002bfff60033fff6003fffe00012000bffed0017ffe10018ffe10019ffd800e3;
  0xffd900e4ffc600e5ffcf00e6fff600e7ffe300e9ffbb00ebffed00f8fff600f9;
  0xfff600faffec00fbffd900fcffe300feffec010affb1000e000b00210017ff69;
  0x0018ff7300250004002bffec00d2ffec00e5ffeb00e6ffba00e7ffec00e9ffec;
  0x00ebffeb00f7ffe200feffed0100ffcf00160017000a0018000a002bffec0033;
  0xfff5003fffb900d2000a00d6fffd00e6ffce00e9001300ebfff600f7ffe200f8;
  0xffec00f9ffea00faffe100fbffa600fcffea0100ffe20107ffd8010aff880136;
  0xffae0144fffd0146ffec000a000b00470017ff9c0018ffa60025005c00e6ffe2;
  0x00e7ffec00e9ffd800ebffec00fefff60138ffae0005002bfff6003ffffb00e7;
  0xfff600fbffeb0120ffb00005000bfff60017fff60018ffec0019fff5003fffaf;
  0x00060017ffed0018ffed003fffd700e3ffed00e6ffed0136ffda000400e3fff6;
  0x00e9fff500ebfff600f8fff6000500e5fff600e6ffe300e9fff600ebfff60100;
  0xffec000200e9001300fcfff6000100fe0013000500e3ffe300e5fff600e9ffed;
  0x00ebffed00fcffed000900e6ffcd00e9001300f7ffec00f8ffe300f9ffd900fa;
  0xffd900fbffa600fcffd70100ffec000b00e4fff600e5ffec00e6ffce00e7ffeb;
  0x00ebffec00f7ffeb00f9ffec00faffec00fbffec00fcffec0100ffe2000800e3;
  0xffec00e4ffed00e9ffe100ebffec00f9ffec00faffec00fcffed00feffd90002;
  0x00e6ffed0100ffed000200e9ffe200feffe3000300e9ffe200ebfff600feffed;
  0x000200e6ffd800fbffbb00024a10000400004a7a4ec40063005f0000ffe2ffe8;
  0xffecfff6ffecffe2ffcefff6ffe3ffecfff6ffecfff6ffecfff6fff6ffecffe2;
  0xffe3ffecffedfff6000000000000000000000000000000000000000000000000;
  0x0000000000000000000000000000000000000000000000000000000000000000;
  0x0000000000000000000000000000000000000000000000000000000000000000;
  0x0000000000000000000000000000000000000000000000000000000000000000;
  0x0000000000000000000000000000000000000000000000000000ffb8fff60000;
  0xfff6000a000000000000ffa6ffe200000000ffe2000a0014000aff8800000000;
  0xffebffebffebffd7ffc4ffe1fff5ffecfff50014ffebffd7fff5000affd3ffeb;
  0x001dffe200000000000000000000000000000000000000000000000000000000;
  0x0000000000000000000000000000000000000000000000000000000000000000;
  0x0000000000000000000000000000000000000000000000000000000000000000;
  0x000000000000000000000000000000000000000000000000ffd700000000fff6;
  0x0000000000000000ffcdffd800000000ffec000000000000ffce00000000ffe2;
  0xffe2ffe2ffe6ffe2ffebffecfff6fff6000dffe2ffec00000000ffe2ffec0000;
  0xffebfff6ffecffec000000000000000000000000000000000000000000000000;
  0x0000000000000000000000000000000000000000000000000000000000000000;
  0x0000000000000000000000000000000000000000000000000000000000000000;
  0x00000000000000000000000000000000000000000000ffc2fff600000000000a;
  0xffecffec0009ff9b00000000fff60000000a00140014ff88fff500000000000a;
  0x00140000ffec0000000000000000000afff6ffec000000140000000000130000;
  0x000a000a0013000a001400000000000000000000000000000000000000000000;
  0x0000000000000000000000000000000000000000000000000000000000000000;
  0x0000000000000000000000000000000000000000000000000000000000000000;
  0x0000000000000000000000000000000000000000ffccffe2ffec000afff5ffec;
  0xffc40000ffb00000fff6ffe20000000000000000ffccffbaffec000000000000;
  0x0000000000000000000a00000000000000000000000000000000000000000000;
  0x00000000000a0000000000000000000000000000000000000000000000000000;
  0x0000000000000000000000000000000000000000000000000000000000000000;
  0x0000000000000000000000000000000000000000000000000000000000000000;
  0x000000000000000000000000000000000000ff8800000000ffce0000fff60000;
  0xfff6ff61ffcf00000000ffbb000000000000ff6a000a0000ffc4ffd7ffc4ffb0;
  0xffb0ffb1ffceffbbffe2000affc4ffb9ffcf0000ffa6ffba000affc4ffecffd8;
  0xffe1ffe20000ffd8ffd800000000000000000000000000000000000000000000;
  0x0000000000000000000000000000000000000000000000000000000000000000;
  0x0000000000000000000000000000000000000000000000000000000000000000;
  0x00000000000000000000000000000000ff920000fff6ffd80000fff60000fff6;
  0xff87ffd800000000ffc4000000000000ff7400140000ffceffd8ffd8ffb9ffaf;
  0xffbaffceffc4ffeb0000ffceffb9ffd80014ffbaffcd001dffc4ffecffd8ffe7;
  0xffe20000ffe2ffd8000000000000000000000000000000000000000000000000;
  0x0000000000000000000000000000000000000000000000000000000000000000;
  0x0000000000000000000000000000000000000000000000000000000000000000;
  0x0000000000000000000000000000000000000000ffe2fff6fff60000000a0000;
  0x000000000000ffb100000000fff600000000fff6ffd8ffbaffce00000000ffcf;
  0x0000ffd8000000000000ffe2ffec0000fff6ffeb000000000000fff6ffe2ffeb;
  0x0000fff600000000000000000000000000000000000000000000000000000000;
  0x0000000000000000000000000000000000000000000000000000000000000000;
  0x0000000000000000000000000000000000000000000000000000000000000000;
  0x0000000000000000000000000000000000000000ffc4ffe2ffc30000fff60000;
  0x0000ffeb000000000000000000000000000000000000000000000000ffeb0000;
  0xffe2000000000000fff6000000000000ffed0000000000000000000000000000;
  0x0000000000000000000000000000000000000000000000000000000000000000;
  0x0000000000000000000000000000000000000000000000000000000000000000;
  0x0000000000000000000000000000000000000000000000000000000000000000;
  0x00000000000000000000fffd000000000000000000000000000000000000fff6;
  0x000000000000000000000000000000000000000000000000fff6000000000000;
  0x0000000000000000000000000000000000000000000000000000000000000000;
  0x0000000000000000000000000000000000000000000000000000000000000000;
  0x0000000000000000000000000000000000000000000000000000000000000000;
  0x0000000000000000000000000000000000000000000000000000000000000000;
  0x0000000000000000fffcfff60000000a000afff6ffe200090000000000000000;
  0x0000000000000000000000000000000000000000000000000000000000000000;
  0x0000000000000000000000000000000000000000000000000000000000000000;
  0x0000000000000000000000000000000000000000000000000000000000000000;
  0x0000000000000000000000000000000000000000000000000000000000000000;
  0x0000000000000000000000000000000000000000000000000000000000000000;
  0x000000000000000000000000ffe2ffc3ffcdffb100000013000000000000ffd8;
  0xffb0ffb000000000000000000000ffeb001d00000000ffe10000ffeb00000000;
  0x000000000000ffb00000ffed0000000000000000fff5000000000000ffec0013;
  0x0000000000000000000000000000000000000000000000000000000000000000;
  0x0000000000000000000000000000000000000000000000000000000000000000;
  0x0000000000000000000000000000000000000000000000000000000000000000;
  0x00000000ffe0000000000000ffec0000ffd80000000000000000ffd700000000;
  0x0000000000000000000000000000000000000000000000000000000000000000;
  0x000000000000000000000000000000000000000000000000fff6000000000000;
  0x0000000000000000000000000000000000000000000000000000000000000000;
  0x0000000000000000000000000000000000000000000000000000000000000000;
  0x0000000000000000000000000000000000000000000000000000000000000000;
  0x0000000000000000000000000000000000000000000000000000000000000000;
  0x0000000000000000000000000000000000000000000000000000000000000000;
  0x00000000000000000000000000000000000000000000fff60000000000000000;
  0x0000000000000000000000000000000000000000000000000000000000000000;
  0x0000000000000000000000000000000000000000000000000000000000000000;
  0x0000000000000000000000000000000000000000000000000000000000000000;
  0xffe1ffec00000000ffe2ffe2ffe10000ffe200000000fff60000000000000000;
  0xffecffecffec0000000500050000fff700000000000a00090000000000000000;
  0x0000000000000000000000000000000000000000000000000000000000000000;
  0x0000000000000000000000000000000000000000000000000000000000000000;
  0x0000000000000000000000000000000000000000000000000000000000000000;
  0x0000000000000000000000000000000000000000000000000000000000000000;
  0x000000000000fff5ffecffc400000000fff6fff6000000000000000000000000;
  0x00000000fff5fff60000fff60000000000000000000000000000fff600000000;
  0x0000000000000000000000000000000000000000000000000000000000000000;
  0x0000000000000000000000000000000000000000000000000000000000000000;
  0x0000000000000000000000000000000000000000000000000000000000000000;
  0x0000000000000000000000000000000000000000000000000000000000000000;
  0x0000000000000000fff600000000000000000000000000000000000000000000;
  0x0000000000000000000000000000000000000000000000000000000000000000;
  0x0000000000000000000000000000000000000000000000000000000000000000;
  0x0000000000000000000000000000000000000000000000000000000000000000;
  0x0000000000000000000000000000000000000000000000000000000000000000;
  0x0000000000000000000000000000000000000000000000000000ffec00000000;
  0x00000000fff6fff60000ffdafff600000000fff6000000000000fff60000fff6;
  0x0000fff6fff6000000000000000000000000000000000000000000000000fff6;
  0x0000000000000000000000000000000000000000fff600000000000000000000;
  0x0000000000000000000000000000000000000000000000000000000000000000;
  0x0000000000000000000000000000000000000000000000000000000000000000;
  0x0000000000000000000000000000000000000000000000000000000000000000;
  0x00000000000000000000000000000000ffd00000000000000000ffe200000000;
  0x0000000000000000000000000000000000000000000000000000000000000000;
  0x000000000000000000000000000000000000fff6fff6ffec0000000000000000;
  0x0000000000000000000000000000000000000000000000000000000000000000;
  0x0000000000000000000000000000000000000000000000000000000000000000;
  0x0000000000000000000000000000000000000000000000000000000000000000;
  0x0000000000000000000000000000000000000000000000000000000000000000;
  0x0000000000000000000000000000000000000000000000000000ffeb00000000;
  0x0000000000000000000000000000000000000000000000000000000000000000;
  0x0000000000000000000000000000000000000000000000000000000000000000;
  0x0000000000000000000000000000000000000000000000000000000000000000;
  0x0000000000000000000000000000000000000000000000000000000000000000;
  0xffe1000affed0000000000120000ffecffeb00000000ffecffe20000fff60000;
  0x00000000001300000013000000000000000a0012000000000000000000000000;
  0x0000000a00000000000000090000000000000000001300000000000000000000;
  0x0000000000000000000000000000000000000000000000000000000000000000;
  0x0000000000000000000000000000000000000000000000000000000000000000;
  0x0000000000000000000000000000000000000000000000000000000000000000;
  0x00000000000000000000ffe3ffd80000ffec0000ffc4ffd90000ffeb00000000;
  0x000000000000000000000000000000000000000000000000ffeb000000000000;
  0x0000000000000000000000000000fff5ffecfff6000000000000000000000000;
  0x0000000000000000000000000000000000000000000000000000000000000000;
  0x0000000000000000000000000000000000000000000000000000000000000000;
  0x000000000000000000000000000000000000000000000000ffebffe2ffd80000;
  0x0000ffecfff6fff50000ffebffecffe20000ffecffe2ffeeffdaffe400000000;
  0x00000000000000000000000000000000fff5000000000000000000000000ffee;
  0x0000ffec0000000000000000000000000000fff5000000000000000000000000;
  0x0000000000000000000000000000000000000000000000000000000000000000;
  0x0000000000000000000000000000000000000000000000000000000000000000;
  0x0000000000000000000000000000fff60000000000000000ffecfff60000fff5;
  0x0000000000000000000000000000fff6000000000000000000000000fff6ffec;
  0x0000000000000000000000000000000000000000000000000000fff600000000;
  0x0000000000000000000000000000000000000000000000000000000000000000;
  0x0000000000000000000000000000000000000000000000000000000000000000;
  0x0000000000000000000000000000000000000000000000000000000000000000;
  0x000000000000000000000000ffc3ffe2fff600000000ffe2ffcf0000ff950000;
  0xfff6ffecfff6000000000000ffc4ffe3ffee0000000a000afff6fff600000000;
  0x000000000000fff70000000000000000ffed0000000000000000000a00000000;
  0xffec00000000ffec000000000000000000000000000000000000000000000000;
  0x0000000000000000000000000000000000000000000000000000000000000000;
  0x0000000000000000000000000000000000000000000000000000000000000000;
  0x0000000000000000000000000000000000000000000000000000ffcf0000fff6;
  0xffecfff6ffd8ffec0000ffd9ffb1ffda00000000000000000000000000000000;
  0x00000000000000000000fff600000000ffec0000000000000000000000000000;
  0x00000000ffed0000000000000000000000000000000000000000000000000000;
  0x0000000000000000000000000000000000000000000000000000000000000000;
  0x0000000000000000000000000000000000000000000000000000000000000000;
  0x0000000000000000ffd800000000000a00000000000000000000000000000000;
  0x00000000000000000000000000000000000000000000fff60000000000000000;
  0x00000000000000000000000000000000000000000000000a0000000000000000;
  0x0000000000000000000000000000000000000000000000000000000000000000;
  0x0000000000000000000000000000000000000000000000000000000000000000;
  0x0000000000000000000000000000000000000000000000000000000000000000;
  0x000000000000000000000000fff6ffecffe2ffd800000000000000000000ffbc;
  0xffd9ffc6ffd00000ffc6ffc6ffecffe2ffe2fff60000ffe20000ffd900000000;
  0x0000ffec0000ffda0000fff6ffd900000000ffedfff60000ffdafff600000000;
  0xffd9ffdaffe3ffe3ffd9ffda0000000000000000000000000000000000000000;
  0x0000000000000000000000000000000000000000000000000000000000000000;
  0x0000000000000000000000000000000000000000000000000000000000000000;
  0x0000000000000000000000000000000000000000fff6000000000000ffb2ffc4;
  0xffceffcf0000ffa7ffb2fff6ffecffec00000000fff60000ffe3000000000000;
  0xfff60000ffd80000ffecffce000000000000fff60000ffbcfff600000000ffe3;
  0xffd9ffe30000ffbcffcf00000000000000000000000000000000000000000000;
  0x0000000000000000000000000000000000000000000000000000000000000000;
  0x0000000000000000000000000000000000000000000000000000000000000000;
  0x0000fff6ffecffec0000ffceffd8ffb1000000120000fff6000a0000ffecffec;
  0xffec0000ffc3ffe2000000000013fff60000fff6000000000000000000000000;
  0x0000000000000000ffec00000000000000000000000000000000000000000000;
  0x0000000000000000000000000000000000000000000000000000000000000000;
  0x0000000000000000000000000000000000000000000000000000000000000000;
  0x0000000000000000000000000000000000000000000000000000000000000000;
  0x00000000000000000000000000000000ff8900000000ffd70000000000000000;
  0x00000000000000000000000000000000ffc5ffec000000000000000000000000;
  0x0000000000000000000000000000000000000000000000000000000000000000;
  0x0000000000000000000000000000000000000000000000000000000000000000;
  0x0000000000000000000000000000000000000000000000000000000000000000;
  0x000000000000000000000000000000000000000000000000000000000000ffec;
  0x000000000000ffe2ffd8ffc500000000fff5fff6000000000000000000000000;
  0x00000000ffecfff60000ffecfff6000000000000000000000000ffec00000000;
  0xfff600000000fff600000000fff6000000000000000000000000000000000000;
  0x0000000000000000000000000000000000000000000000000000000000000000;
  0x0000000000000000000000000000000000000000000000000000000000000000;
  0x0000000000000000000000000000000000000000000000000000000000000000;
  0x000000000000fff6000000000000000000000000000000000000000000000000;
  0x0000000000000000000000000000000000000000000000000000000000000000;
  0x0000000000000000000000000000000000000000000000000000000000000000;
  0x0000000000000000000000000000000000000000000000000000000000000000;
  0x0000000000000000000000000000000000000000000000000000000000000000;
  0x0000000000000000000000000000000000000000000000000000000000000000;
  0x0000000000000000000000000000000000000000000000000000000000000000;
  0x000000000000000000000000000000000000000000000000000000000000ffeb;
  0x0000000000000000000000000000fff600000000000000000000000000000000;
  0x0000000000000000000000000000000000000000000000000000000000000000;
  0x0000000000000000000000000000000000000000000000000000000000000000;
  0x000000000000000000000000000000000000000000000000ffb800000000fff6;
  0x0000fff600000000ff91fff600000000ffcf000000000000ff9b00000000ffeb;
  0xfff6fff6ffe1ffd8ffceffecffc400000013ffe2ffd800000014ffe1ffd80000;
  0xffec0000ffec000000000000ffe7000000000000fff6ffeb0000000000000000;
  0x0000000000000000000000000000000000000000000000000000000000000000;
  0x0000000000000000000000000000000000000000000000000000000000000000;
  0x0000000000000000000000000000000000000000000000000000000000000000;
  0x000000000000ffaf0000fff60000ffe3000000150013ffb0ffda000000000000;
  0x0000fff5ffecffec0000ffec000000000000fff6000000130000fff500130000;
  0x00000000000a00000000000000000000ffec0000fff600000000000000000000;
  0x0000000000000000000000000000000000000000000000000000000000000000;
  0x0000000000000000000000000000000000000000000000000000000000000000;
  0x0000000000000000000000000000000000000000ffb900000000000000000000;
  0x00000000ff75000000000000ffe1000000000000000000000000fff500000000;
  0xffe1ffe1ffd6fffdffc40000001effecffe2fffd0000ffebffe20000ffeb0000;
  0x0000000000000000fff60000ffb0000000000000000000000000000000000000;
  0x0000000000000000000000000000000000000000000000000000000000000000;
  0x0000000000000000000000000000000000000000000000000000000000000000;
  0x0000000000000000000000000000000000000000000000000000ffed0000ffe2;
  0x0000000000000000000000000000000000000000000000000000000000000000;
  0x0000000000000000000000000000000000000000000000000000000000000000;
  0x0000000000000000000000000000000000000000000000000000000000000000;
  0x0000000000000000000000000000000000000000000000000000000000000000;
  0x0000000000000000000000000000000000000000000000000000000000000000;
  0x0000000000000000000000000000000000000000000000000000000000000000;
  0x0000000000000000000000000000000000000000000000000000000000000000;
  0x0000000000000000000000000000000000000000fff600000000000000000000;
  0x00000000fff60000000000000000000000000000000000000000000000000000;
  0x0000000000000000000000000000000000000000000000000000000000000000;
  0x0000000000000000000000000000000000000000000000000000000000000000;
  0x000000000000000000000000000000000000000000000000000000000000ffed;
  0x000000000000ffe3ffe2ffe2ffe30000ffb1ffcf00000000000000000000ffed;
  0x0000ffe300000000000000000000ffec00000000ffe200000000000000000000;
  0xffec000000000000ffedfff700000000ffedfff7000000000000000000000000;
  0x0000000000000000000000000000000000000000000000000000000000000000;
  0x0000000000000000000000000000000000000000000000000000000000000000;
  0x00000000000000000000000000000000000000000000ffebffe20000fff60000;
  0x00000000ffd90000000000000000ffe2000000000000000000000000ffec0000;
  0xffd9000000000000fff600000000000000000000000000000000000000000000;
  0x0000000000000000fff600000000000000000000000000000000000000000000;
  0x0000000000000000000000000000000000000000000000000000000000000000;
  0x0000000000000000000000000000000000000000000000000000000000000000;
  0x0000000000000000000000000000000000000000000000000000000000000000;
  0xfff6ffe3ffec0000ffed0000ffb1ffcf0000000000000000000000000000ffed;
  0x00000000000000000000000000000000000000000000000000000000ffed0000;
  0x00000000ffed0000ffed0000ffedffed00000000000000000000000000000000;
  0x0000000000000000000000000000000000000000000000000000000000000000;
  0x0000000000000000000000000000000000000000000000000000000000000000;
  0x0000000000000000000000000000ffcdffaeff9cff9200000000000000000000;
  0x0000000000000000000000000000ffd8ffb9ffc6fff500000000000000000000;
  0x00000000ffce00000000ffecffe200000000ffec0000ffcd00000000ffe2ffd8;
  0x0000000000000000000000000000000000000000000000000000000000000000;
  0x0000000000000000000000000000000000000000000000000000000000000000;
  0x0000000000000000000000000000000000000000000000000000000000000000;
  0x000000000000000a00000000fff6ffeaffe1ffc30000000000000000fff60000;
  0x0000000000000000ffd60000000000000000ffedfff6ffe20000ffeb00000000;
  0x0000ffec00000009000000000000000000000000000000000013000000000000;
  0x0000000000000000000000000000000000000000000000000000000000000000;
  0x0000000000000000000000000000000000000000000000000000000000000000;
  0x0000000000000000000000000000000000000000000000000000000000000000;
  0x0000000000000000000000000000000000000000ffe300000000ffec0000ffeb;
  0xfff5ffed0000ffceffe300000000000000000000000000000000000000000000;
  0x0000002500000000000000000000000000000000000000000000000000000000;
  0x0000000000000000000000000000000000000000000000000000000000000000;
  0x0000000000000000000000000000000000000000000000000000000000000000;
  0x0000000000000000000000000000000000000000000000000000000000000000;
  0x0000000afff6fff6ffd9ffc3ffbbffa60000000000000000ffe2ffc4ff87ff88;
  0xff920000ff6aff74ffebffc4ffcefffb0000ffe20000ffe2000000000000ffec;
  0xffeeff920000ffecffa4000000000000ffecfff5ff920000fff5000000000000;
  0x00000000ff9cffa6fff1ff7fff9dffc4ffe1ffd9fff6ffebffe2ffe1ffecfff6;
  0x0000000000000000000000000000000000000000000000000000000000000000;
  0x0000000000000000000000000000000000000000000000000000000000000000;
  0x00000000000000000000fff6ffed00000000000000000000ffec0014000b0000;
  0x000000000000fff6000000000000000000000000000000000000000000000000;
  0x001400000000000000000000000000000000000a000000000000000000000000;
  0x0000000000000000fff6fff600000000000000000000fff6000000000000ffed;
  0x0028fff600000000000000000000000000000000000000000000000000000000;
  0x000000000000000000000000000000000000000000000000000000000000ffc4;
  0xffe2ffec000affecffecffc5fff6ffd80000fff6ffec00000000ffed0000ffce;
  0xffd8ffec0000000000000000fff6000000000000000000000000000000000000;
  0xfff6000000000000000000000000000a00000000000000000000000000000000;
  0x00000000fff6ffcfffcfffec0000fff600000000fff6fff50000fff6ffb00034;
  0xffb9ffd800130013fff6ffe2ffecfff600000000000000000000000000000000;
  0x0000000000000000000000000000000000000000000000000000000000000000;
  0x000000000000fff1fff100000000000000000000ffeb00000000000000000000;
  0x0000fff6ffebffec0000fff60000000000000000000000000000000000000000;
  0x0000000000000000000000000000000000000000000000000000000000000000;
  0x00000000fff1fff10000fff5000000000000ffec00000000fff60000001e0000;
  0x0000000000000000000000000000000000000000000000000000000000000000;
  0x0000000000000000000000000000000000000000000000000000fff5fff60000;
  0x000afff5fff0ffcffff5fff600000000fff60000000000000000ffecffe2ffe2;
  0x0000000000000000000000140000001300000000000000000009000000000000;
  0x0000000000000000000000000000000000000000000000000000000000000000;
  0x0000ffd8ffd800000000000000000000fff600000000fff6ffd80050ffd8ffec;
  0x000a000afff6ffecffec00000000000000000000000000000000000000000000;
  0x000000000000000000000000000000000000000000000000000000000000ffe8;
  0x00000000000000000000ffed000000000000000000000000000000000000ffeb;
  0xffd8ffe2ffecffecffec000000000000000a0000ffec00000000ffecffec0000;
  0x000000000000fff600000000fff6fff600000000000000000000000000000000;
  0x0000000000000000ffd80000ffecffe200000000fff600000015000000000000;
  0x0000ffed0000fff60000fff50000000000000000000000000000000000000000;
  0x00000000000000000000000000000000000000000000000a00000000ffe20000;
  0xfff5fff6000a0000000000000000ffb0000000000000000000120000ffebffc4;
  0xffcefff6fff6ffe10000ffe2000000130000ffec000000000000ffec00120000;
  0x00000000ffebffea0000fff6fff50000000000000000000000000000ffecfff6;
  0xfff60000ffce00000000ffebffe200000000000000000000000000000000ffec;
  0x0000000000000000000000000000000000000000000000000000000000000000;
  0x00000000000000000000000000000000000000000000ffedfff6ffecffb0ffce;
  0xff94ffed0000fff60000ffe3ffc6ff7effaeff9c0000ff76ff6bffe8ffd7ffe1;
  0x0000000000000000000000000000000000000000ffb900000000ffc20000ffed;
  0x0000fff60000ff8a0000000000000000000000000000ff9cff94ffecff89ff9c;
  0xffc5ffe3ffed0000ffe1ffecffe1ffe20000fff6ffdb0000ffed00000000ffed;
  0x0000ffec00000000000000000000000000000000000000000000000000000000;
  0x000000000000000000000000000000000000ffd7fff60000ffec0000fff60000;
  0x0000ffe1ffec00000000fff6000000000000ffd600000000ffebffebffebfff4;
  0xffebffebfff500000000000afff5fff400000000fff4ffeb0000ffebfff6fff6;
  0xfff500000000fff5000000000000000000000000000000000000000000000000;
  0x0000ffe10000ffecffea00000000ffebffba001effc4fff60000fff6ffe2ffe0;
  0xffebffebffeb0000000000000000000000000000000000000000000000000000;
  0x00000000000000000000000000000000ffd8ffe8ffec000afff6ffecffd90000;
  0xffd800000000ffec0000ffe30000fff6ffd8ffcefff500000000000000000000;
  0x000a0000000a0000000000000000000000000000000000000000000000000000;
  0x000a000a000000000000000000000000000000000000fff6ffd8ffe2fff60000;
  0x00000000000000000000fff6fff6ffbb0034ffceffe200140014fff6ffed0000;
  0x0000000000000000000000000000000000000000000000000000000000000000;
  0x0000000000000000000000000000000a00000000ffecffe1ffe1ffce000a0000;
  0x000000000000ffd8ffd8ffe2fff50000ffb9ffd7fff5ffecffec00000000ffec;
  0xfff6fff6000000000000fff60000fff40000fff5ffea000000000000fff6fff6;
  0xffeb0000fff600000000000000000000ffe1ffe2fff6ffc4ffceffebffe2ffe2;
  0x0000ffecfff6ffebfff60000000a00000014000a00000000fff7000000000000;
  0x0000000000000000000000000000000000000000000000000000000000000000;
  0x000000000000000000000000ffecfff6fff60000fff6ffe2ffe20000ffecffed;
  0xfff6fff600000000ffec0000fff6ffebffecfff6ffecffec0000fff600000000;
  0x00000000000000000000000000000000000000000000fff60000fff600000000;
  0x000000000000000000000000000000000000fff6ffe2ffe20000000000000000;
  0xfff6fff6fff5fff60000ffd80033ffd7fff600000000ffecffecffecfff60000;
  0x0000000000000000000000000000000000000000000000000000000000000000;
  0x00000000000000000000ffba00000000fff6000afff600000009ffaffff50000;
  0x0000ffd8001d00150014ffaf001d0013ffeaffd8ffd8ffd7ffd7ffce0000ffd6;
  0x0000001effe2ffbaffec001effceffea001cffc4000000000000000000140000;
  0x000000000000000000000000000a00140000000000000014ffecffcd00000000;
  0xffbb000a00000000ffb00027ffae0000ffeb00000000ffd60000ffe00000fffd;
  0xffed000000000000000000000000000000000000000000000000000000000000;
  0x0000000000000000ffb0ffecfff6ffe2fff6ffec0000fff6ffb0ffeb0000fff6;
  0xffec000000000000ffa50000fff6ffe1ffebffe1ffd7ffd7ffd8ffebfff6ffeb;
  0x000affe2ffe1ffec0000ffd8ffd80000ffe1ffecfff5ffeb00000000ffe2fff5;
  0x0000000000000000000000000000fff1ffedfff60000fff6ffd7fff5ffecffd8;
  0x00000000ffe2ffaf0014ffaffff60000ffecffecffc2ffe2ffe1ffe2fff40000;
  0x0000000000000000000000000000000000000000000000000000000000000000;
  0x000000000000ffa600000000ffce0000000000000000ff9dffc500000000ffa8;
  0x000000000000ff9c00140000ffb1ffbbffbbffb0ffa2ffb1ffc5ffb1ffd8001d;
  0xffbbffa6ffcf0000ffb0ffba000affb0ffd9ffc5ffc4ffd90000ffd8ffe10000;
  0x000000000000000000000000000000000000000bffceffafffecffd9ffa70000;
  0x0000ffe2ffa60000ff920000ffcdffc5ffe3ffa6ffe2ffc3ffd8ffd6ffe30000;
  0x0000000000000000000000000000000000000000000000000000000000000000;
  0x00000000000000000000fff6fff6ffecfff600000000000000000000ffeb0000;
  0xfff60000000000000000fff6ffe2ffe200000000000000000000000000130000;
  0x0000000000000000000000000000000000000000000000000000000000000000;
  0x000000000000000000000000fff6fff60000ffec00000000fff6fff600000000;
  0x000000000028000000000000000a000000000000000000000000000000000000;
  0x0000000000000000000000000000000000000000000000000000000000000000;
  0x0000000a00000000fff6ffceffcfffb0000000000000000000000000ffc4ffce;
  0xffd80000ff92ffc40000ffecfff60000fff600000000fff600000000fffb0000;
  0x0000ffe20000fff6ffce00000000000000000000ffd800000000000000000000;
  0x00000000ffd8ffe3ffecff9dffa7ffd8fff6ffed0000ffe2ffecffebffec0000;
  0x000000160000000000000000ffed000000000000000000000000ffecffeb0000;
  0x0000000000000000000000000000000000000000000000000000000000000000;
  0xffd8ffecfff50000ffc4ffd8ffb00000ffec0000fff6fff50000ffd7ffceffeb;
  0xffe2ffa6ffcefff60000fff60000000000000000000a00000000000000000000;
  0xffec00000000ffe20000fff60000fff60000ffe3000000000000000000000000;
  0x0000ffed0000ffe2ffb0ffbaffeb0000000000000000fff6ffd7fff6fff6ffeb;
  0x003dffceffeb00000000ffe3ffecfff5ffecfff6000000000000ffecfff6fff6;
  0xfff5fff60000000000000000000000000000000000000000000000000000fff5;
  0xfff500000000ffd8ffe2ffc4000000000000fff5000000000000fff600000000;
  0xffc4ffeb00000000000000000000000000000000000000000000000000000000;
  0x0000000000000000000000000000000000000000000000000000000000000000;
  0x00000000ffebffbaffc400000000ffec00000000fff6fff40000000000000033;
  0xffebffec00000000ffec00000000000000000000000000000000fff500000000;
  0x0000000000000000000000000000000000000000000000000000000000000000;
  0x000000000000fff6ffcf00000000000000000000000000000000000000000000;
  0x0000000000000000000000000000000000000000000000000000000000000000;
  0x0000000000000000000000000000000000000000000000000000000000000000;
  0x00000000ffe2ffe2000000000000000000000000ffec00000000000000000000;
  0xfff600000000ffe3000000000000000000000000000000000000000000000000;
  0x0000000000000000000000000000000000000000000000000000000000000000;
  0xffc5ffafffc4ff890000000000000000ffcf0000ffb0ff9cff7f0000ff740000;
  0xffd8ffa6ffd8ffecffedffc60000ffd9000000000000ffe2ffcfff9cffedffc6;
  0x0000ffed00000000ffd80000ff75ffe3ffda00000000000000000000ff75ff75;
  0x0000ff74ff88ff7f0000ffb2000cffb2ffe2ffc5ffecffe30000ff8b00000000;
  0x00000000ffd00000ffe30000ffe300000000ffbcffba0000ffe3ffe3ffecffda;
  0xffe300000000000000000000000000000000000000000000ffeb00000000000a;
  0x00000000ffd90000000000000000000000000000000000000000000000000000;
  0x0000000000000000000000000000000000000000000000000000000000000000;
  0x0000000000000000000000000000000000000000000000000000000000000000;
  0xffecffec000000000000000000000000000000000000fffc00000000ffec0000;
  0x0000000000000000000000000000000000000000000000000000000000000000;
  0x00000000000000000000000000000000000000000000fff60017002a0000003e;
  0x0020003e003dffec00000034003e0000003e0034002a000000520034ffecfff6;
  0xfff60000ffedffecfff6ffec000c003d0000ffec00000048fff6000000470000;
  0x0015fff700000000003e000c000000000000000000000000003e003e00200048;
  0x003e0051ffecffec000c0016ffec003d0000000b000000520000003e00000000;
  0x000d000000150000000000000000ffec0015fff600000000fff6000000000015;
  0x0015000000000000000000000000000000000000ffecfff600000000ffceffe2;
  0xffba0000ffe3fff6fff6ffec0000ffebffe2ffec0000ffa6ffd70000fff6fff6;
  0xfff60000000a0000000000000000000000000000000000000000ffeb00000000;
  0x000000000000ffec0000000000000000000000000000ffed0000ffecffbaffc4;
  0xffeb0000000000000000fff6ffe2fff60000ffec0034ffd8ffec00000000ffec;
  0xfff6fff600000000000000000000fff6ffec00000000fff6fff6000000000000;
  0x0000000000000000000000000000000000000000fff6fff60000ffecffd8ffd8;
  0x0000ffe3fff60000ffecffe30000fff6fff60000ffc6ffed0000fff6fff60000;
  0xfff600000000000000000000000000000000fff6000000000000000000000000;
  0x00000000fff6fff600000000ffedffe3ffe30000fff6fff7ffecffceffceffed;
  0xfff6000000000000ffecffe200000000ffe2002affe2ffec000000000000ffe2;
  0x00000000ffec00000000fff6fff6fff60000fff5fff6fff6000000000000fff6;
  0xffe3ffedfff60000000000000000000000000000000000000000000000000000;
  0x0000000000000000000000000000000000000000000000000000000000000000;
  0x0000000000000000000000000000000000000000000000000000000000000000;
  0x0000000000000000000000000000000000000000000000000000000000000000;
  0x000a000000000000ffe20000ffec000000000000000000000000ffe30000fff6;
  0x0000000000000000000000000000fff600000000000000000000000000000000;
  0x00000000000000000000000000000000001700340000003e003400480034ffe2;
  0x0000fff6005a0000005200480034ffec00660048fff6000a000a00000000ffe2;
  0x00000000001f00390000fff10000005b0000000000500000001e000000000000;
  0x00510015001e00000000000000000000005b0052002100480048006500000000;
  0x001f001f00000047fff6001e0000006fffed003e000000000016ffed00150000;
  0x0014000000000000001300000000000000000000000000290029000000000000;
  0x0000000000000000000000000000000000000000ffecffe2ffbb000000000000;
  0xfff6000000000000000000000000ffd7000000000005000affecfff6fff50000;
  0x0000000000000000fff60000000a000000000000000000000000000000000000;
  0x0000000a00000000000000000000000000000034ffd8ffd8fff50000ffeb0017;
  0x00000000ffd90000fff60000001e0000000000000000ffed000b00000000fff5;
  0xffec000000000000000000000000000000000000000000000000000000000000;
  0x0000000000000000000000000000000000000000ffecffc50000ffed00000000;
  0xffd80000000000000000000000000000000000090000fff6fff6ffd60000ffd6;
  0x000000000000000000000000000000000000000a000000000000000000000000;
  0x00000000000000000000000000000000ffedffbbffce000000000000000a0000;
  0x00000000fff60000000000000000000000000000000000000000000000000000;
  0x0000000000000000000000000000000000000000000000000000000000000000;
  0x0000000000000000ffebffecffeb000affceffe2ffb1fff5ffcffff6ffecffd6;
  0x0000ffcfffd80000000000000000fff6ffecfff5000000000000ffd600000000;
  0x00000000000000000000fff6000000000000fff60000fff60000000000000000;
  0x0000000000000000000000000000ffe2ffa8ffbbffe100000000fff7ffedffec;
  0xffceffecffe3ffd700000000ffcf00000000ffd9ffe3ffcfffec000000000000;
  0x0000ffe2fff60000ffda0000ffe30000ffeb00000000000000000000ffc40000;
  0x0000000000000000000000000000ffc4ffe2ffba0000000000000000fff50000;
  0xffceffbaffbb0000ff92ffbafffbffe2ffe200000000fff60000000000000000;
  0x000000000000ffd800000000ffce000000000000fffb0000ffc50000fff60000;
  0x0000000000000000ffcfffe3ffecffa6ffb0ffcefff6ffe30000ffe2fff1ffd8;
  0xfff5fff600000016000000000000000000000000fff60000000000000000ffec;
  0xffec00000000fff60000fff60000000000000000000000000000000000000000;
  0x00000000ffe20000fff6000affd6fff6ffbbfff6ffd0fff60000ffd800000000;
  0xffdb00000000000000000000fff6fff6000000000000ffd60000000000000000;
  0x000a0000ffee0000000000000000000000000000000000000000000000000000;
  0x00000000000000000000ffecffb2ffbcffd9000000090000ffec0000ffb1fff6;
  0xffe3ffe100000000ffd800000000ffcfffe2ffd0ffecffe3000000000000ffc5;
  0xffedffedffc6ffe3ffe30000000000000000000000000000ffc6000000000000;
  0x00000000000000000000ffecffecffec00000000000000000000000000000000;
  0x000000000000ffe30000fff1fff100000000fff6000000000000000000000000;
  0x0000000000000000000000000000000000000000000000000000000000000000;
  0x00000000000000000000ffebffec00000000ffed00000000fff6000000000000;
  0x0000002900000000000000000000000000000000000000000000000000000000;
  0x0000000000000000000000000000000000000000000000000000000000000000;
  0x0000000000140000001e00000000001e00000000000000140000001e000b0015;
  0x0000002800150000000000000000000000000000000000000015000000000000;
  0x000c000000000014000000000000000000000015000000000000000000000000;
  0x00000015001500000000000000150000ffed0000000000000014000000000000;
  0x00290000000a0000000000000000000000000000000000000000000000000000;
  0x0000000000000000000000000000000000000000000000000000000000000014;
  0x000000000000ffd7ffd8ffba000a000000000000fff500000000000000000000;
  0xffd7000000000000000000000000ffe20000ffeb000000000000ffec00000000;
  0xfff6000000000000000000000000000000000000000000000000000000000000;
  0x00000000ffebffbaffce00000000ffe200000000fff6ffecfff50000000a0000;
  0x0000000a000000000000000000000000000000000000fff50000000000000000;
  0x0000000000000000000000000000000000000000000000000000000000000000;
  0x00000000ffecffecffd8000000000000000000000000ffecffe2ffec0000ffec;
  0xffecfff6fff6fff6fff6fff6ffec0000000000000000000000000000ffec0000;
  0x0000000000000000000000000000000000000000000000000000000000000000;
  0x00000000ffd9ffe20000fff5fff60000fff6ffecfff5000000000000001f0000;
  0x00000000000000000000000000000000fff60000fff6fff50000000000000000;
  0x0000000000000000000000000000000000000000000000000000000000000000;
  0x0000000000000000000000000000000000000000000000000000000000000000;
  0x000000000000000000000000000000000000000000000000000000000000ffed;
  0x0000000000000000000000000000ffed00000000000000000000000000000000;
  0x0000000000000000000000000000ffed000000000000fff60000000000000000;
  0x00000000ffed0000ffec0000fff600000000ffe3ffecffe30000ffedffedffe3;
  0x000000000000000000000000000000000000000000000000ffe200000000ffec;
  0x0000fff6000000000000000000000000ffc40000ffed0000000000000000ffec;
  0xffec000a00000000ffd6ffd7ffd80000001dffecffe2ffcd0000ffecffec0000;
  0xfff6fff6ffd9fff600000000ffecffec00000000000000000000000000000021;
  0x000000000000ffd7ffe10066fff6000000000013ffecffd80000000000000000;
  0x000000000000ffecfff6ffecffeb0000000000000000fff50000ffec0000ffec;
  0x000000000000000000000000ffeaffed000000000000ffe4000000000000ffec;
  0xffecffd90000ffd800000000ffcd000000000000000000000000000000000000;
  0x0000000000000000000000000000000000000000000000000000000000000000;
  0x000000000000000000000000001c00000000000000000000000000000000ffd0;
  0xffd9000000000000000000000000000000000000ffeb00000000ffec00000000;
  0x0000000000000000000000000000000000000000000000000000000000250000;
  0x00000000000000000000ffd70000000000000000ffcd0000fffb0000ffd8fff6;
  0xffb2ffec00000000fff6ffc40000000000000000000000000000000000000000;
  0x0000fff60000000000000000000000000000000000000000ffed000000000000;
  0x0000000000000000ffe3000000000000000000000000000000000000ffc5ffce;
  0xffda0000ffed0000ffedfff6ff9e0000ffc6000000000000ffbb00000000ffb3;
  0xffe1ffbcfff5ffd900000000ffedffd0ffcfffc5ffe3ffedffd0000000000000;
  0x0000000000000000ff9c00000000000000000000000000000000000000000000;
  0x0000000000000000000000000000000000000000000000000000000000000000;
  0x0000000000000000000000000000000000000000000000000000000000000000;
  0x000000000000ffe3000000000000000000000000000000000000000000000000;
  0x000000000000fff60000ffc40000ffe1000000000000000000000000ffd90000;
  0xffd90000ffec000000000000ffe2ffecffd9ffecfff6ffe20000000000000000;
  0x00000000000000000000000000000000ff7d00000000ffe3001dfffb00000000;
  0xff9a0000000000000000000000000000000000000000000000000000ffe1ffce;
  0xffcf0000000000000030fff6ffd800000000ffe1ffe30000fff6fff600000000;
  0x00000000000000000000000000000000000000000000fff60000000000000000;
  0xffc400000000ffec000000130000ff56000000000000000000000000ffb00000;
  0x0000ffec00000000ffe20000ffe2ff80ffecffecfff6ffeb0000000000000000;
  0x00000000ff880000000000000000ff91fff60000ffec001e000000000014ffb2;
  0x00000000000000000000fff60000000000000000000000150014ffd8ffc4ffd7;
  0xffedffd8000000140000ffc5ffda0000ffd8ffe30000000000000000000a0000;
  0x0000fff6000000000000000000000000000000000000000000000000ffecffcd;
  0x00000000ffec00140014fff6ff730000ffc40000ffe200000000ffb00000000a;
  0xffe2ffe20000ffed0013ffe2ffb8ffebffecffedffecffecffec000000000000;
  0x0000ff7effe3ffe200000000ff8700000000ffd80014000000000000ff9effd8;
  0x00000000ffb2000000000000000000000000ffd80000ffedffbaffbaffb1ffd8;
  0xffc400000014ffd8ffa7ffcf0000ffb0ffce0000ffd800000000ffe200000000;
  0xffe3ffecfffd00000000000000000000000000000000000a0000ffd8ff9bfff6;
  0xffecffd700130013ffecff4c0000ffbb0000ff9c0000fff6ff9cffe3ffecffe1;
  0xffd80000ffc50000ffbaff90ffc4ffd7ffd9ffcd0000ffec0000000000000000;
  0xff880000000000000000001400000000ffebffc3ffd7ffa60014000000000000;
  0x000000000000ffce0000000000000000ffebffb9ffe200000000000000000000;
  0x000000000000fff600000000000000000000000000000000ffec000000000000;
  0x000000000000000000000000000000000020ff92ff9200000000ffec0016ffe2;
  0xffec0000ffec000a001400000000001400000000000000000000000000000000;
  0x0000fff6ffec0000001400140000000000000000000000000000000000000000;
  0x0000000000000000ffc3ffecffec00000000ffe2ffce0000ffa50000fff5ffeb;
  0x00000000000a0013ffb8ffd800000000000a000afff5fff6ffec0000ffe20000;
  0x00000000fff600000014fff60000000000000000fff600130000001dfff60000;
  0x0000000000000000000000140014ffe2ffceffd800000000ffea0000000a0000;
  0xffe2fff5ffecffaf001fffc2ffc4fff10000fff6ffce00000000fff5fff40000;
  0x00000000fff5ffd6000000000000000000000000000000000000000000000000;
  0x000000000000ff8700000000fff60014000000000000ff9c0000000000000000;
  0x000000000000000000000000000000000000ffd8ffd800000000000000000013;
  0xfff6ffeb00000000ffec00000000fff600000000000000000000000000000000;
  0x000000000000000000000000ffec0000000000000000000000000000fff60000;
  0x00000000ff5600000000fff60000000000000000000000000000000000000000;
  0x00000000fffb000000000000ffed000000000000000000000000000000000000;
  0x00000000fff6ffecfff60000ffe2ffecffa70000ffecfffbfff6fff50000ffeb;
  0xfff5fff60000ffb9ffe200000000000000000000000000000000000000000000;
  0x00000000000000000000ffec00000000000000000000ffec0000000000000000;
  0x00000000000000000000ffe2ffbaffc4ffeb000000000000fff6fff6ffe2fff5;
  0xfff600000028ffd8000000000000fff60000fff600000000000000000000fff6;
  0xfff60000fff5fff6fff600000000000000000000000000000000000000000000;
  0x0000fff60000000000000000fff5fff50000ffed000000000000ffed0000ffed;
  0x0000fff6ffecffd80000fff5fff5000000000000000000000000000000000000;
  0x0000000000000000000000000000000000000000fff6000000000000ffed0000;
  0x00000000fff60000fff5fff5fff50000000000000000ffecfff6ffebfff60000;
  0x00000047ffe3000000000000fff6ffedfff60000fff600000000fff7ffeb0000;
  0x000000000000fff60000000000000000ffedfff6fff6000000000000ffec0000;
  0x00130000000000000000fff5ffd8000a000000000000000000000009000a0000;
  0x0000ffe200000000000a000000000000ffec0000000000000000000000000000;
  0x00130000000a000000000000000000090000001d0014000a0000000000000000;
  0x000000130000fff6ffd8ffe200000000fff60000000a00000000000000000000;
  0x0027000900000000000000000000000000000000000000000000000900000000;
  0x0000000000000000000000000000000000000000000000000000000000000000;
  0x00000000fff6ffe1ffd9ffbb0000000000000000ffed0000ffe2ffe2ffe20000;
  0xffb1ffd80000ffecffec0000fff7ffed00000000000000000000fff60000fff6;
  0x00000000000000000000fff600000000ffec0000000000000000000000000000;
  0xffecffedffe2ffb1ffbbffec0000fff6fff7fff6fff6ffecfff6fff600000016;
  0x00000000000000000000000000000000000000000000fff6ffec00000000fff6;
  0x00000000000000000000000000000000000000000000000000000000ffb9ffeb;
  0xffeb0000fffdffebffce0000ffa50000ffecffdc0000000000140000ffaeffe2;
  0x00000000000a0009fff0ffecffeb0000fff5000000000000ffec00000014fff6;
  0x00080000000000000000000a000000130000000000000000000000000000000a;
  0x000affd8ffceffd800000000fff40000000a0000ffe20000fff5ffa60027ffb8;
  0xffcefff50000ffedffd7fff60000fff5fff400000000000affebffd6fff50000;
  0x0000000000000000000000000000000000000000000000000000000000000000;
  0x00000000ffecffcd0000000000000000fff600000000000000000000ffce0000;
  0x0000000000000000000000000000000000000000000000000000000a00000000;
  0x0000000000000000000000000000000000000000000000000000000000000000;
  0x0000ffc4ffce00000000000000000000fff6ffecfffb00000000001500000000;
  0x0000000000000000000000000000000000000000000000000000000000000000;
  0x000000000000000000000000000000000000000000000000ffecfff600000000;
  0x0000ffecffe20000ffd000000000ffec00000000000000000000ffec00000000;
  0x000a000a00000000000000000000001300130013000a001c0013000000000000;
  0x000000000000000a0000000000000000000000000000000000000000000a0000;
  0xffecffec000000000000001300000000000000000000ffeb003effd8fff50000;
  0x0000000000000000000000000000000000000000000000000000000000000000;
  0x000000000000000000000000000000000000000000010041000100030007000b;
  0x000f0011001700180019001a00210025002c00330059005c005d005e005f0060;
  0x007c007d008200a900bb00bc00c100d100d600e300e400e600e700e900eb00f7;
  0x00f800f900fa00fb00fc00fe010001070109010a011f01200136013801440145;
  0x014601a301a401a501a601a701a801a901aa01c501c601c701d2000200110001;
  0x00590000005b00a7005900a900d600a600e200ec00d400f7010500df01070118;
  0x00ee011a012b0100012d0136011201380138011c013a013a011d013f0141011e;
  0x01440146012101a401a4012401a701a9012501bd01c4012801c901cc01300221;
  0x022201340001000102220025002d0000002e002f003000010031003200320002;
  0x0033003400320035003600030036003700380039003a000500060007003b003c;
  0x003d003e003f0050004400470048004b004d0017004f0050004b004b003e003e;
  0x001d005a005c005e005f00600060002b00600061002d002d002d002d002d002d;
  0x002d002d002d0030002e002e002e002f002f0030003000300030003000300030;
  0x0030003100310031003200320032003200320032003200330034003400000034;
  0x0035003500350035003500360036003600360036003600360036003000370037;
  0x00370038003800380038003900390039003a003a003a003a003a003a003a003a;
  0x003b003b003c003c003c002f0004003d003d003d003d003d003d003d003d003d;
  0x0044003f003f003f004300500044004400440044004400440044004400480048;
  0x0048004d004d004e004e004e004d004d004d004f0050004300000050004b004b;
  0x004b004b004b003e003e003e003e003e003e003e003e0044005a005a005a0016;
  0x0047005c005c005c005c005e005e005e005f005f005f005f005f005f005f005f;
  0x00600060006100610061000e003e004d0050005e000800000000000000000000;
  0x0000000000000000000000000062001b0028004500140011005d002200450018;
  0x00620000000000000000000000000000000000000000002c001c002900270015;
  0x0012005d002300450019004100410040004000410000000f0010001e001f0020;
  0x005600560057005800570058005900590049004a0049004a004c0000004c004c;
  0x004c004c0054000c002a0052005300520053005200530049004a0049004a004c;
  0x0000004c004c004c00520053005200530052005300240000000b0000005b0000;
  0x00000000000000420042005b000000000009000a001a00000000000000000000;
  0x0000000000000000000000000000000000000000000000000000000000000000;
  0x0000000000000000000000000000000000000000000000000000000000000000;
  0x0000000000000000000000000000000000000000000000000000000000000000;
  0x0000000000000000000000000000000000000000000000000000000000000000;
  0x0000000000000000000000000000000000000000000000000000000000000000;
  0x00000000000000000000000000000000002600000000000d0013002100000000;
  0x0000000000000000000000000000000000000000000000000000000000000000;
  0x0000005500550051005500540046005100550000000000000000004600550046;
  0x0046000000000000000000000000000000000000000000000000000000000000;
  0x0000000000000000000000000000000000000000000000000000000000000000;
  0x0000000000000000000000000000000000000000000000000000000000000000;
  0x0000000000000000000000000000000000000000000000000000000000000000;
  0x0000000000000000000000000000000000000000000000000000000000000000;
  0x0000000000000000000000340050000100010222004c00010002000400020002;
  0x0002000400020002003400020002000300030004000200040002002600050006;
  0x003500360043000700080017000b001f001f001f000a0018000b001c003a000b;
  0x000b001e001e001f003c001f001e002200280014001500150049001600250001;
  0x0001000100010001000100010001000100400004000400040002000200020002;
  0x0002000200020002000200020004000400040002000200020002000200020002;
  0x0002000200020002000200030003000300030003000400040004000400040004;
  0x0004000400040002000200020026002600260026000500050005000600060006;
  0x0006000600060006000600070007000800080008000200020017001700170017;
  0x001700170017001700170017001f001f001f001f001f001f001f001f001f001f;
  0x001f001f001f001800180018001c001c001d001d001d001c001c001e000b000b;
  0x000b000b000b001e001e001e001e001e001f001f001f001f001f001f001f001f;
  0x001f001e001e001e000a000a0022002200220022002800280028001400140014;
  0x0014001400140014001400160016002500250025001f003e000a000a000a004b;
  0x00000000000000000000000000000000000000000000002c00460048003f0039;
  0x004a0023003d002b003b002c0000000000000000000000000000000000000000;
  0x00540053005200510050004f0023004e002b004d000900090027002700090055;
  0x005d00000056005b0000000e000e000f0021000f0021002d002d0019001a0019;
  0x001a001b0000001b001b001b001b000d003800420020000c0020000c0020000c;
  0x0019001a0019001a001b0000001b001b001b0020000c0020000c0020000c0047;
  0x000000370000001000000000000000000029002900100024002400440045005c;
  0x0013001300130013001300130013001300130013000000000000000000000000;
  0x0000000000110011001100110011001100110011001100110000000000000000;
  0x0000000000000000000000000000000000000000000000000000000000000000;
  0x000000000000000000000000000000000000000000000000002a002a002a0032;
  0x002a002a002a003200330032003200410032003200320032002a0033002a0032;
  0x002a002a002a00120012003200330032002a002a005800000059000000000000;
  0x0057005e005a00000000000000000000000000000000002f002f002f002f002f;
  0x002f002f002f002f002f002f00300030002e0030000d00310030002e00000000;
  0x0000000000310030003100300000000000000000000000000000000000000000;
  0x0000000000000000000000000000000000000000000000000000000000000000;
  0x0000000000000000000000000000000000000000000000000000000000000000;
  0x0000000000000000000000000000000000000000000000000000000000000000;
  0x0000000000000000000000000000000000000000000000000000000000000000;
  0x00000000000000000000000000000000000000000002000b].

(** GPOS of tests/fixtures/AdobeVFPrototype.ttf: 45236 bytes at 137912. *)
Definition adobe_vf_gpos : list byte := runs (N.to_nat 45236) [
  0x00010000000a00260048000244464c54000e6c61746e000e000400000000ffff;
  0x00020000000100026b65726e000e73697a650014000000010000000400000064;
  0x000000000000000000010004000200000002000a1c06000100a600440000004e;
  0x0146015a01b001e8022002ca02d8034603d8047611b011b004f0057c11b011b8;
  0x05fc069a072c11c007d00898096013b009d40a3c0ab60bd20c880d4a0df40ebc;
  0x0f7e102e1072109810ca10f0111c113011b011b011b011b011b811c011c011c0;
  0x11c013b011c8124e12f813a213b013ca1414142814a214aa14b814cc14da1584;
  0x15f81690171017de187618cc1946199c19fe1a721ace1b601bc81bd60001004e;
  0x00010004000500070010002000210023002700280029002a002b002c002e002f;
  0x0031003300350036003700380039003a003d004000470048004b004c00520053;
  0x0059006100620063006500690071007f008c008d008e008f00910099009a009b;
  0x009c009d009e009f00b000c200c700ca00d400df00e500f100f600f700fe00ff;
  0x01010102010401060112011301140115011601170119011b0127013600030035;
  0xffecaefa0037ffe2ae820038ffe2ae82000e0010ffd8ac100037ffecaee60038;
  0xffecaee600390000aef80048fff6ae980055000aaefe0086ffd8aef800be0000;
  0xae0e00feffecaee60101ffecaeec01040000ad2a01060000ae6e01160000ad2a;
  0x01170000aef8000900fefff6adc400ff0000ae720104fff6ae300106fff6ae84;
  0x0113fff6ae4201150000aea201170000ae3001190000ae60011b0000ae840008;
  0x002bfff6ae100035ffc4ad6e0037ffba00320038ffc4ac5400be0000ad800101;
  0xffe2adc80102fff6ae0a0104ffecadd4000200828000001b0004ffec00000007;
  0x0000ae1a0010ffb0081600210000ad8400350000ad6c0037000aadd80038000a;
  0xadd80048ffe2ae020051ffecae0e0059fff6ae320061ffd8ab56007fff8800a4;
  0x0086ffbaae3200be000aade400ff0000ae3201000000ae320101ffce00000102;
  0x0000adf601040014adc00106fff6add20112ffe200000113ffecae140114ffec;
  0xad5a0115ffe2ae320116ffa600000117ffecadf0011bffe2ac820000000e8000;
  0x00010010ffb000080002008a80000010002b0000006200350000ad7a00370000;
  0xaa3e00380000aa3e00390000aa3e0040ffb000000048fff6acf00051fff6ad56;
  0x00590000ad8000860000006800be0000ad080102fff6ad1a01040000ac960116;
  0xffecad7a01170000ad7a01190000ad7a00010008800000010000800000170010;
  0xffecad0600210000acfa002bfff1008c0035ffec00000037ffceac820038ffd8;
  0xacac0039ffe20000003dffecac460040ffecab6200480000ad120051fff60000;
  0x00550000ac880059fff6ad1200690000acfa0086ffceac8200befff6acee00e7;
  0x0000acca00feffecabce00ffffec00000100fff6ac2e0104fff6ac9a0106fff6;
  0xac8201360000ad000002006f8000001a0007fff6aa7c0010ffc4ac3e0021ffec;
  0xac38002b0000ac800035000a000000390000ac80003d000aac1a0040ff88ac7a;
  0x0048ffc4ab9c004b0000ac3e0051ffd8ac8000550000ac7a0059ffe2ac7a0069;
  0x0000ac7a0086ff7eac1a00ae0014aad000be000aac4a00dfffecac8000e7001e;
  0xac3200fe0000ab9000fffff6ac2c0100fff6ac7a0101ffe2aad00102ffeca9c2;
  0x0104000aac2c0136fff6ac7a00140010ffecaae00021000aab82002b0000abdc;
  0x0035fff6a9120037ffd8ab160038ffd8ab160039ffecabb8003d0000abdc0040;
  0xffd8abb80051fff6000000590000ab9a0086ffd8ab7c00be0000abe200e70000;
  0xab9a00fefff6abb800ffffec00000100fff6ab5801020000abe201040000aa32;
  0x0136000aaae0001700070000aaba0010ffe203a20021fff6ab1a002b0000ab68;
  0x00390000ab620040ffbaab320048ffe2ab68004bfff6ab080051ffd8ab3e0055;
  0xffecab080059ffecab6200690000ab620086ffceab6200be0000aa7800df0000;
  0xab1400feffecaad800fffff6ab320100ffecab680101ffd800000102fff6ab1a;
  0x01040000ab440106ffec000001360000ab62001500200000aadc002bffecaa1c;
  0x00350000aad60037fff6aab20038fff6aab20048fff6aa4c004b0000aad60051;
  0xffe2aab20055ffecaad60069ffecaa9400860000aac400be0000aad600dfffce;
  0x000000e70014a76a00ff0000aadc01000000aa6401010000a8cc01020000aad6;
  0x01040000aa8e0106ffeca7b20136ffec0000001a00070000a70e0010ffceaa1a;
  0x00200000aa5c00210000aa56002bfff600000035000aaa5c0037fff600000038;
  0xfff600000039ffecaa5c003d000aaa5c0040ff74a97e0048ffeca9cc00550014;
  0xa9e40069000a00000086ff92a9f600be0000a97200df0000a9cc00e70014aa56;
  0x00fe0000a96c00ff0000a9c001000000a9c00101ffecaa2601020000aa0e0104;
  0x0000a96c01060000a9780136000aaa50001800200000a9be002bfff6a9be0035;
  0xffe2a9b80037ffc4a8f20038ffcea9940039000aa96a003dffeca9b800400014;
  0xa96a00480000a9be0051fff6a96a0055fff6a9be0069fff600000086000aa99a;
  0x00befff6a96a00dfffe2a92e00e7ffeca91000fefff6a8e600ff0000a99a0100;
  0x0000a9220101ffe2a8da01020000a9b80104ffeca8d40106ffeca99a01360000;
  0xa9be001a0001ffeca91400070000a90e0010ffd8a5de0021ffeca8ea002b0000;
  0xa92c0035000aa92c00390000a8d8003d0014a8600040ffb0a8e40048ffd8a66e;
  0x004b0000a9260051ffbaa89600550000a9260059ffe2a77c00690000a9260086;
  0xffb0a92c00ae001ea8e400be0000a83c00dfffec000000e7001e009e00fe0000;
  0xa90801000000a9260101ffcea92001020000a8ea0104000aa8d801360000a8e4;
  0x000200738000001f0001ffd8a8700007ffd800bc0010ffa6a8280021ffce00c2;
  0x00370000a7f800380000a7f8003d000aa85e0040ff60a87c0048ffb0a834004b;
  0xffeca8820051ffbaa7a40055ffe2a8820059ffba00000069ffe200000086ff6a;
  0xa6f000a3ffcea66000a4ffc4a7b600acffe2a78600ae000aa79e00af001ea79e;
  0x00be0000a79800dfffd8a88200e7000aa88800feffeca7b600ffffe2a8640100;
  0xffeca8520101ffb0a8460102ffe2a8820104000aa8340106ffeca7980136ffd8;
  0xa8880002005b80000002005e8000001e0001ffd8a7a80007ffe200b60010ffa6;
  0xa7300021ffcea5bc00370000a73000380000a730003d000aa7960040ff7ea778;
  0x0048ffb0a78a004bffeca7c00051ffbaa7a80055ffe700bc0059ffcea7480069;
  0xffe200000086ff7e000000a3ffcea77800a4ffbaa6dc00acffeca7b400ae0000;
  0x00c200af0028a48400be0000a6d000dfffd8a7ba00e7001ea79000feffeca6d0;
  0x00ffffd8a6dc0100ffeca7480101ffbaa7720102ffe2a7480106ffe2a6ee0136;
  0xffd8a7c00001000480000002004d8000000200308000001300070000a6f2002b;
  0x0000a6f80035fff60000003d0000a6e0004bffeca6e60051ffe2a6d40055ffe2;
  0x00000069ffeca6f200af0000a6e000be0000a60800dfffd8a6ce00fe0000a608;
  0x00ff0000a6d40100fff6a65c0101ffd8a68001020000a6c201040000a6800106;
  0xffeca6f80136fff6a6f80010002b0046a6060035ffc4a67e0037ff9ca5c40038;
  0xffa6a46200390000a67e003dffb0006200480000a672004b005aa3f00055fff6;
  0xa67e00860000a63c01000000a6600101ffe2a5f40102ffec00000104ffd8a4b0;
  0x0106ffec00000119fff6a61e000200728000001200210000a616002b001e006e;
  0x0035ffb0a5d40037ff6aa6160038ff74a616004b000000740051ffeca5f80055;
  0xffcea61600beffeca5f80100ffeca6160101ffbaa58c0102ffec00000104ffec;
  0xa5f20106ffeca6160112ffe2a5f801160000a52c0119ffeca4d8011bffcea60a;
  0x0002006c80000001001a8000002700020028a45e00070000a57e0010ffeca50c;
  0x00200028a4ca00210000a5a2002b001e00ec0035003c00f200370046a3c20038;
  0x0046a3c20039003c00f8003d0064a4ca0040ffeca45e00480000a4b2004b001e;
  0xa3c800590000a57e00860000a3ce00a4000000fe00abfff1010400ac003ca4d0;
  0x00ae003ca44000af005a010a00b6fff1011000befff6a57800df0000a50600e7;
  0x0050000000fe0014a2f000ff0014a4ca0100001ea3ce01010000a4b801020014;
  0xa4d00104004601160106001ea45e01130000a4d001140000a57e01150000a506;
  0x01160000a26601170000a4b201190014a52a011b0000a4be0002002580000002;
  0x0023800000020007800000010016800000020053800000020000800000020052;
  0x8000000200018000001c00020000a4860007ffeca4860010000aa3f000200000;
  0xa39600210000a486002b003200aa0035ffeca3b40037ffd800000038ffd8a486;
  0x003dfff6a40e0048fff6a45c004b001400b000510000a48600be0000a40e00df;
  0x0000a48600e70000a48000feffeca1da0100fff6a3ea0101ffeca4500102fff6;
  0xa4800104ffd8a2ac01060000a46e01120000a48001130000a39601140000a432;
  0x01150000a46201160000a14a01190000a3960002004980000002004b80000020;
  0x00070000a3580010fff6a2ec00200000a37c002b0000a28000350000a3ca0037;
  0xfff6a2e60038fff6a2260039fff600000040ffe2a39a0048fff6a2a4004b0000;
  0xa36400510000a37c00550000a3ac00590000a3d00086fff6a2fe00be0000a358;
  0x00df0000a11800e70000a3ca00fe0000a1fc00ff0000a35801000000a39a0101;
  0xfff6a37c01020000a3ca01040000a1e401060000a3d001130000a2e001140000;
  0xa39a0115fff6a3d00116fff6a2e00117fff6a37c0119000aa0dc011bfff60000;
  0x001c00020000a30800070000a30800200000a296002bffeca3080035ffd8a2cc;
  0x0037ffbaa2a80038ffcea21e0039000aa272003d0000a2300051fff6a30e0055;
  0x0000a30e00590000a1e20086000aa2ea00befff6a2d800df0000a2de00e70000;
  0xa30800fe0000a23c01000000a2ba0101ffe2a2ea01020000a30e0104ffeca29c;
  0x01060000a30e01120000a2cc01130000a2ea01160000a27e01170000a2ea0119;
  0x0000a224011bfff6a2d8002100070000a22e000d00280c78001000009f7c001c;
  0x00289f2800200000a210002b001ea1f80035ffce00000037ffb0a24c0038ffba;
  0xa1ce00390000a1ec003dfff6a22e00400000a22e004b001ea10800590000a264;
  0x00860000a25e00be0000a17400df0000a1e000e7ffec000000fefff6a19200ff;
  0xfff6a2100100fff6a25e01010000a1ec01020000a1ec0104ffec9f7001060000;
  0xa21001120000a26401130000a1740114fff6000001150000a25e01160000a25e;
  0x01170000a26401190000a1f2011b0000a1da002000020000a19c0007fff69f38;
  0x0010ffcea13c00200000a1240021fff19e12002bffe2a17200350000a1000037;
  0xffcea1360038ffd800000039ffc4a0d0003d00009ede0040ffc4a1600048fff6;
  0xa14800550014a1660086ffb0a0a000befff6a16c00df0000a0ac00fefff6a100;
  0x00ff0000a19c0100ffeca1480101ffeca1540102fff6a1900104ffe29fc80106;
  0x000aa0b801120000a19c01130000a17801140000a19c01150000a15a0116ffd8;
  0x9fec0117fff6a15a01190000a0ac011b0000a10c001d00070000a0d400200000;
  0xa0d400210000a0da002bffeca0ce0035ffec9da40037ffbaa04a0038ffcea0d4;
  0x003d0000a0d40048fff6a0b0004b0000a0560051ffeca0b000550000a0da0059;
  0x0005a05000befff69ff000df0000a0aa00e700009e7600fe0000a04a00ff0000;
  0xa0da01000000a0980101fff6a0a401020000a0d40104ffec9eb201060000a086;
  0x01120000a098011300009fea01140000a0da01160000a0b60119000aa062011b;
  0x0000a0d4000a002b0014003e0035fff69ff40037ffcea0240038ffd89fdc0039;
  0x0000a024004b001e9eec008600009fe200be00009f3a010400009cee01190000;
  0xa0240002006a8000000600feffe29f2c00ff00009fc20100fff69f560104ffec;
  0x9f0e0106ffec9f680117ffec9f50000800fe00009ed00100fff69f300101ffe2;
  0x9f420104fff69edc0106fff69f60011200009fba011900009f78011bffec0000;
  0x000600fe00009efe010400149f16010600009f76011300009e9e0117fff69f64;
  0x011b00009f6a0006003500009f620037ffec9f3e0038ffec9f3e0039ffec9f08;
  0x008600000026010400009f6200010001800000030104ffe29e580106fff69ed6;
  0x0119ffec9f240014002b00149ebc0035ffe29e380037ffc49ed40038ffd89ef8;
  0x0039ffec9ed40048fff69e98004b00289eaa0051fff69efe0055fff69efe0059;
  0xfff69efe0086ffe29cc400be00009e3800fe00009e3800ff00009d5401020000;
  0x9e3801040000007a010600009f04011200009f04011300009e38011900009db4;
  0x000200058000000100ae000a9e72000100ae000a9e52000100ae000a9e200016;
  0x000200009e900010ffe29e5a002bfff69e8a0035fff69e4e0037ffc49e2a0038;
  0xffc49e2a0039ffc49e66003dffec9e8a0040ff749e8a005100009e6c0069000a;
  0x00000086ffb09e9000beffec9df400df00009e7800e700009e4800feffec9db8;
  0x00fffff69e180100ffec9df4010200009e4e0104ffe29da6010600009e6c0136;
  0x00149e8a001b000200009dd4001000009e04002000009e04002bffec9d6e0035;
  0xffec9dd40037ffd89d7a0038ffd89d7a003900009e04003d00009d920040ffec;
  0x9db6004b00009e0a0051ffe29d740055ffec9ccc00df00009d9200e700009dc2;
  0x00fefff69d3800ff00009d92010000009de6010100009de60104000000a40106;
  0x00009c5a0113fff69ace011400009d6e0115fff69d92011700009d920119ffec;
  0x9b16011bfff69d38000200128000001c000700009d600010ffe29d5a00200000;
  0x9d60002bfff69d5a0035ffe29d000037ffd89d000038ffe29d2a0039ffe29d5a;
  0x003d00009d5a0040ffba00000048fff69cca004b000a9d5a0051fff69d480086;
  0xffd89c7000beffec9d4800fefff69c7c00ffffec00000100fff69d6001020000;
  0x9d5a010400009b2c011200009cd0011300009c70011400009d600115fff69d0c;
  0x0116ffec0000011700009d18011900009b8c011b00009cd000020057fff69c38;
  0x0058fff69c38000400a3ffc49c7200a4ffb09b1000acffec9c3000aeffec9b10;
  0x000c00ff00009c8e010000009c880101ffce9c88010200009c88010400149c16;
  0x0112ffec9c8e0113ffe29c100114ffd89c7c0115ffd89c7c0116ffa69bc20117;
  0xffd89c88011bffec0000000300fe00009c2c010100009c20010400009a700014;
  0x002bffec9c180035ffec00000037ffe29c2a0038ffe29c2a0039ffd89c06007f;
  0xffb09b9a00be00009c0000feffd89c1800ffffc499ba0100ffce9c180101fff6;
  0x9bca0102ffe29c1e0104ffba9aec0106ffec9aec0113fff69b5e0114fff69c06;
  0x0115ffec9b700116ffd89c180117ffe29b9a0119ffec9b400001011900149b3e;
  0x00020101ffd800000116ffba9b9600030101ffec9b88010400009ab0011bffec;
  0x9b8e00020104ffe29b8c0119ffe29ad2001c0005ffec9b66002b00009b2a0035;
  0xffec00000037ffd89b5a0038ffd89b5a003900009b66004800009aac004b0000;
  0x9b5a0051ffec9a8e0055fff69a8e005900009aee0062ffec00000065fff69aee;
  0x0070ffc49a4c008600009b6600be00009b0c00ca00009aee00d400009aee00df;
  0xffe29b6600e5fff69aee00e7ffd89b6c00fe0000981e00ff00009ab801000000;
  0x9ae20101ffec99aa0102fff69b5a0104ffec98420106ffec9a9a001300210000;
  0x9ad4002b00009ace003500009ace0037ffec9ace0038ffec9ace003d00009ad4;
  0x004800009ad40051ffec9ad4005500009ad400be00009a5c00dfffec9abc00e7;
  0x00009a8c00fe00009ab000ff00009a920100000099360101ffec000001020000;
  0x9a9e0104000099f6010600009a8000190004000099f4000700149a3c00210014;
  0x9a2a002b00009a5a0035000098b00037ffe29a2a0038ffe29a2a003900009a2a;
  0x003d00009a600040ffe299ca0051fff600000055000a9a60005900009a600070;
  0xffec00000086fff69a2a00be000099c400e5000099d000e700009a1800fe0000;
  0x988c00ff000099e80100000099c40101000a9a0c010200009970010400000474;
  0x01060000983800150005fff699380007000a99740010ffec9962002b00009992;
  0x0037fff699740038fff6997400390000982a0040ffe29974004b000099c80051;
  0xfff6992c0055000099c80059000099920086fff6995000be0000995600caffe2;
  0x992000fe000098d800ff000099980100000099920102fff699a40104fff69848;
  0x0106ffec99a400220004ffec00000005ffec98f40007ffe299000010ffba0000;
  0x0021ffd89912002b000099120039000098ac003d001499120040ff7e99240048;
  0xffd898ac004b000099420051ffe298ac0055000098ac0059ffec98580062ffe2;
  0x99240063ffec99480065000a98040070000098dc0071ffec98f40086ffb09720;
  0x00be0000985e00caffb0000000d40000994200dfffe2991e00e5ffe298b800f6;
  0xffd8984600f7ffec994200fe0000977400ffffec98d00100ffec98fa0101ffce;
  0x986a0102ffd899060104000097200106ffec985800170005fff697ea0010ffba;
  0x97d2002bffec98740037ffd897960038ffd897960039ffe298260040ff9c95ce;
  0x0048fff697ea0051fff697ea0055000a00000059000098560086ffc4980200be;
  0x000097de00caffce97ba00d4000097ea00df000097ea00fe0000008c00ff0000;
  0x97900100000000920101000098440102ffe298500104ffec9808010600009856;
  0x0000000180000002001d8000000d002100009716003d000097dc0040ffe297be;
  0x0055000097e20059000097dc00be0000974600ca000097a000e7000097dc0114;
  0x000097e20115000097dc0116000097dc01170000952401190000005000020015;
  0x800000140005000095b8003dffe20000004800009768004bfff696a80051ffec;
  0x97680055fff697380062ffec969c0065fff696ba0070ffc4965400beffec969c;
  0x00dfffce977400e5ffec977400e7ffce97620112000096f00113ffec96480114;
  0xfff6000001150000961e01170000961e0119ffe295b8011bffec96c6000e003d;
  0xffec97120051fff696ee0055000096be00be0000962800dfffec964600e70000;
  0x970c0112000097120113000096220114000096be0115000096be0116000096ee;
  0x011700009712011900009592011b000096760010003dffec96bc0040fff69656;
  0x004800009698004b0000963e0051fff6969800550000966800700000967400be;
  0xfff6954e00e7ffe295f00113000094e801140000966801150000966801160000;
  0x95cc01170000962001190000012c011b000095d200120007001495e200100014;
  0x0000002100149654003dffe2965a004b000095ee00510000965a00550000965a;
  0x0070ffec95f400be0000965a00df0000965400e7ffec955e0112000096300113;
  0x0000956a0115000095be0116000a95d001170000956a01190000006e011b0000;
  0x9432000200098000000e003d000095e0004b0000957a00510000956e00550000;
  0x954a0065000095c200be000094fc00df000095c20112000095e0011300009592;
  0x0114000095e00115000095b00117000095e0011900000056011b000094fc0002;
  0x000a8000001800050000949a0010ffd800000021000095120040ffa600000048;
  0xffec00000051000094ee0055000a95360059000095660070001400000071ffec;
  0x957800be0000936200caffd8923000df0000958a00e70014951200f6ffec9578;
  0x00f7ffec95780112000095480113000095180114fff695120115fff693da0116;
  0xffd8923c0117ffec923c011900009362011b0000929600110010ffec94e6003d;
  0xffec942c0040ffc49462004b000094ce0051fff694ce0059000094f80070ffec;
  0x94e600befff694a400caffec942c00e7ffec942c0113ffec940801140000945c;
  0x0115ffec938a0116ffec94ce0117ffec94f80119fff69204011bffec94e00002;
  0x00370000945a00380000945a0006002bfff600000035000a94220037fff69482;
  0x0038ffec00000039fff6947c0086ffb0947c00028b48004400008be88e5a0063;
  0x005a00000000ffec9438000093cc000094320000945cffd8945c000000000000;
  0x0000fff69426000a945cffd89432fff693f6000000000000000000000000fff6;
  0x93f6000093f60000945cfff69450ffb0939000000000ffec936c00000000ffce;
  0x945cfff60000fff693f60000945cffec942c0000940800000000000000000000;
  0x0000ffe2944400000000ffd8945600000000ffce9438ffec93ea000000000000;
  0x93cc0000945c0000000000000000ffec9456ffe292a6ffc40000ffb09390ffba;
  0x935affec945600000000000092b800000000ffec945600009432000000000000;
  0x000000000000000000000000945c00000000fff69438fff6945c00000000fff6;
  0x945c0000000000000000000094380000943800000000ffe2938400009288fff6;
  0x94320000942600000000ffd893e4ffec936cffec94320000000000000000fff6;
  0x93f6fff69396fff60000fff693e4ffe2945cfff693e4fff60000ffce945c0000;
  0x0000ffec94320000000000000000ffe7916200000000000a93cc00000000ffd8;
  0x93900000000000000000ffec0000000a0000ffec94320000945c000000000000;
  0x945c0000000000000000000a945c000093fcffec9390ffd8944400000000ffd8;
  0x93cc00000000fff69456000000000000943200000000fff6945c000000000000;
  0x00000000000000000000000a945c00000000ffe2944a000000000000945c0000;
  0x943800000000000094380000000000000000000093ccffba9444fff693fcfff6;
  0x93fcffd8939cffe293f6ffe2000000000000001400000014945cfff693f60000;
  0x93c600000000000a000000000000000000000000000000000000000094080000;
  0x000000000000000000000000000000000000000094380000000000000000fff6;
  0x9438000000000000000000000000000000000000916800000000ffec94440000;
  0x00000000000000000000fff69438fff6936c00000000000094140000936c0000;
  0x0000ffce93c000000000000000000000000000000000fff693ccffec9432ffd8;
  0x944afffb90cc000a945c00000000ffec93f0ffe293ccffe29378ffba93c60000;
  0x0000000000000000000000000000ffec9456ffe2945c00000000fff693f6ffa6;
  0x000000000000000000000000945cff749438ffce935a0000000000000000ff92;
  0x93fc000000000000945c000000000000945cff920000ffc493ccff8891ce0000;
  0x0000ff889408ff92940800000000ffec9408ffc492a600000000fff694260000;
  0x0000fff190d2ffc49450ff7e934eff9c94440000000000000000000000000000;
  0x0000ffc40000ffe2918c00000000fff694560000000000000000000000000000;
  0x0000000093c000000000ffd894440000000000009408fff693fcffec94560000;
  0x0000000000000000936c00000000ffe294320000945c00000000ffe293720000;
  0x0000000000000000000000000000ffec945cffec9408fff6940800000000ffa6;
  0x91f80000945c0000000000000000000000000000000000000000000000000000;
  0x00000000945c0000945600000000000000000000000000000000000094320000;
  0x0000fff1926400000000000000000000000000000000fff6945c000000000000;
  0x943200000000fff191ec00000000000000000000000000000000ffec945c0000;
  0x00000000000000000000000000000000000000000000000000000000939cffec;
  0x945600000000000000000000939000000000000000000000945cffec94500000;
  0x000000009408000000000000945c00000000fff19192fff191920000945c0000;
  0x0000000000000000000000000000fff694560000000000000000000000000000;
  0x0000000000000000000000000000000000000000943800000000fff693f60000;
  0x00000000945c00000000000000000000000000000000ffec9432000000000000;
  0x00000000945c000000000000000000000000000000000000945600000000fff6;
  0x93cc000000000000945c00000000000000000000000000000000000000000000;
  0x00000000000000000000ffec9408ffe79162ffec000000000000000000000000;
  0x00000000000000000000000000000000000000000000ffec93c600000000ffec;
  0x9426ffec945c0000000000000000000094380000000000000000000000000000;
  0x9438ffe2943200000000000000000000000000000000fff6936c00000000000a;
  0x9438000093cc0000000000000000000000000000000000000000ffec93ccffec;
  0x936cffd893f600009438fff69438000000000000000000000000000094380000;
  0x0000000000000000000000000000000000000000000000000000000000000000;
  0x000000000000000000000000000000000000fff693e400000000ffd893cc0000;
  0x0000ffec93f60000945cffec936c0000000000000000ffec938400000000ffe2;
  0x943800000000000000000000936c00000000000000000000000000000000fff6;
  0x945c0000936cfff693c00000000000000000fff6943800000000000000000000;
  0x00000000000000000000000000000000928800000000fff6940800000000000a;
  0x940800000000000000000000941afff693ccffce90d800000000fffb91ec0000;
  0x000000000000000093d8000093e40000943800009438ffb093cc000000000000;
  0x000000000000ffc40000fff6945c0000000000000000ffd8936c000094380000;
  0x00000000000000000000ffd80000000093e4ffc4943800000000ffce9408ffe2;
  0x92e800000000fff693ccffec9432000000000000000000000000ffec9432ffce;
  0x93c0ff9c92c4ffa6944400000000000000000000000000000000ffd89408fff6;
  0x945c000000000000000000000000000000000000945c00000000000094080000;
  0x0000ffec944400009444fff692b800000000ffe293ccffec938a00000000ffec;
  0x93a20000936cffec94320000940800000000ffec9372ffec9372000000000000;
  0x00000000000000000000ffec0000000094380000936cffce9432000094380000;
  0x00000000000000000000000000000000000000000000fff60000000000000000;
  0x0000fff693f6ffec94320000000000000000ffec935a00009432ffe20000fff6;
  0x945c00000000fff693f60000000000000000000a94080000000000009456ffba;
  0x92ca00000000ffe292c400000000ffd89456fff693f60000945c0000945cffec;
  0x945c00000000000000000000000000000000ffec000000000000ffec94560000;
  0x0000ffe29438000094560000000000009444fff693f60000000000009444ffec;
  0x0000ffec93d2ffce93fcffba9186ffc49432ffec000000000000000000000000;
  0x0000ffec94560000943200000000000000000000000000000000000000000000;
  0x000000009456ffec0000000093cc000000000000000000000000000000000000;
  0x93cc00000000ffec9378fff69378fff694320000940800000000ffe293c0fff6;
  0x936cfff69432000000000000000000000000fff694380000945c00009408ffec;
  0x9360fff6945cfff60000ffd80000000000000000945c000093cc000000000000;
  0x0000ffe29432ffec00000000918cffe293cc00000000ffce941a000090deffd8;
  0x0000fff693cc00000000ffec939c000093e400000000ffec9438ffd89414ffd8;
  0x9456000000000000945c00000000000000000000000000000000000a935afff6;
  0x945c0000000000000000ffd89444ffec939000000000001e923400000000ffc4;
  0x00000000000000000000ffec944400000000ffec0000ffec9438ffec0000fff6;
  0x945cffec9432ffd80000001e90e400000000000000000000000000000000ffec;
  0x9456000000000000000000000000ffd894560000000000000000000000000000;
  0x00000000000000000000ffec93fc0000945cffe29450fff69426000000000064;
  0x9312fff6943200000000ffec944400000000000000000000000000000000ffec;
  0x94140000936c00009456000000000000000000000000fff60000001493e4ffec;
  0x945c0000945c00000000ffec945cffec93f60000000000000000fff6945cffec;
  0x00000000000000000000000000000000000000000000ffe291e6000000000000;
  0x9456ffce941a00000000ffec0000000000000000000000000000000000000000;
  0x0000000000000000000000000000ffd8944400000000ffd80000000000000000;
  0x0000000000000000000000000000000000000000000000000000000000000000;
  0x0000000000000000000000000000000000000000941400000000000000000000;
  0x00000000000000000000001e91f8ffec945600000000ffec0000ffce93f0ffd8;
  0x9444ffec00000000000000000000000000000000000000000000000000000000;
  0x0000000000000000000000000000000000000000000000000000000000000000;
  0x0000000000000000000000000000000000000000000000000000000000000000;
  0x000000000000ffd8945600000000000000000000941400000000000000000000;
  0x0000000000000000000000000000000000000000000000000000000000000000;
  0x0000000000000028943e0000000000000000000a945c000a000000000000ffe2;
  0x93cc0000000000000000ffd8000000000000fff600000000940800000000fff6;
  0x93f6000000000000000000000000ffd89414fff60000ffba944400000000ffce;
  0x93f00000000000000000fff694320000945cfff693cc00000000000000000000;
  0x0000000000000000000000000000000000000000000000000000ffd891bcffec;
  0x93f00000000000000000fff693f60000000000009432ffe29456ffec0000ffd8;
  0x93aeffb0930cffba93f0ffd8945c000000000000000000000000ffd894440000;
  0x0000000000000000000000000000000000000000000000000000ffe29444ffec;
  0x944a000a9426ffec944a0000939000000000ffec94380000000000000000ffce;
  0x93deffe293180000943800000000ffc491e6ffb092c4ffc49384ffe200000000;
  0x00000000000000000000fff69408ffe29444ffc492e200000000ffce93f0ffe2;
  0x93b40000000000000000ffec00000000944a00000000ffec9330ffe2941affe2;
  0x9186ffd89456ffb091d400000000ffec0000fff60000fff69408ffec93cc0000;
  0x9288ffe29390ffec945600000000ffe2941affd89432ffec9456fff693d20000;
  0x943800000000ffb0945cffec9450fff693ccffe29456ffec9432fff6925e0000;
  0x0000fff69426ffe2943800000000000a938a00009432ffec00000000945c0000;
  0x00000000000000000000ffd80000ffd89408ffec9426ffe293e4fff693e4ffb0;
  0x9456fff1925efff60000ffec93c6fff693f6fff60000fff690ea000093aeffec;
  0x943200000000fff6000000000000000094560000000000000000000000000000;
  0x0000ffe2945c00000000ffd8934200000000ffd89456fff69450ffec936c0000;
  0x000000000000ffec93c000000000ffd894080000945c00000000000093ea0000;
  0x0000ffc490f00000000000000000ffec94560000936cffe2945c000000000000;
  0x9456ffe2940800000000ffb0940e00000000ffe2940e00000000000000000000;
  0x0000000000000000000000000000000000000000000000000000000000000000;
  0x0000000000000000000000000000000000000000000000000000000000000000;
  0x0000000000000000000000000000000000000000000000000000000000000000;
  0x0000000000000000000000000000ffe2934e0000000000000000000000000000;
  0x0000000000000000000000000000000000000000000000000000000000000000;
  0x0000000000000000000000000000000000000000000000000000000000000000;
  0x0000000000000000000000000000000000000000000000000000000000000000;
  0x00000000000000000000ffec9390ffec939c00000000ffd8944a000000000000;
  0x0000fff693f60000000000000000ffd89318ffe2937800000000000000000000;
  0x0000ffc4936cffe200000000000000000000000000000000000000000000ffe2;
  0x941affec93f600000000ffd89444fff693f60000000000000000000000000000;
  0x0000000000000000936c00000000000000000000000000000000000000000000;
  0x00000000000000009438ffec945c000000000000000000000000000000000000;
  0x0000fff693cc0000000000000000ffec945c000000000000943800000000ffe2;
  0x91b0fff191920000000000000000000093c00000943800000000000000000000;
  0x000000009288000093e400009288000000000000912000009120000000000000;
  0x936cfff1919200000000000000000000000000000000ffec945cffec93d8ffec;
  0x945c00000000000093c000000000000000000000000000009408000000000000;
  0x000000000000000000000000936c000000000000945c00009438ffec94440000;
  0x943800000000000000000000945c0000936c000000000000936c0000936cfff6;
  0x92d00000928800000000000092dc000092e80000000000000000000000000000;
  0x00000000936c0000940800000000000094560000000000000000000000000000;
  0x000000000000000000000000000000009438fff693f6fff69378000000000000;
  0x00000000000000000000ffec93a200009438ffd893c600000000000000000000;
  0x00000000000000000000ffec94440000936c00000000ffba90f6000000000000;
  0x000000000000ffd89288ffec93cc0000000000000000ffe2938afff693cc0000;
  0x94380000000000000000ffec9378000093c0ffe2928800000000ffe290fcfff6;
  0x92e8000093cc0000936cffec93cc000000000000943800000000ffe293f6ffe2;
  0x9234ffb092c4ffba93de000000000000945c0000000000000000ffec945c0000;
  0x93c0000000000000000000000000000000000000943800000000000093c00000;
  0x936cfff6938a0000936cfff69444fff69162fff6936cfff69438000000000000;
  0x93840000936cfff692ca0000945600000000ffec92e8ffec9288000000000000;
  0x00000000000000000000fff69438fff69438fff6938a00009228000094380000;
  0x94380000000000000000000000000000000000000000ffec93e4ffec93fc0000;
  0x0000fff19210ffba91020000000000000000ffdd9210fff6940effec92beffec;
  0x92ee00000000000000000000000000009438ffec94560000945cffec9456ffce;
  0x93c000000000ffa694260000000000000000000a91080000945c0000910e0000;
  0x9408000094260000945c000000000000000000149456000093e4000094080000;
  0x00000014937800149408fff69264000a937e000a92640000943800000000ffa6;
  0x9390ffd893fc00009114ffce0000ffd89438ffce945cfff69420fff6918c0000;
  0x0000000000000000940e000000000000000000000000000000000000945c0000;
  0x0000fff6941affec9456fff693aeffd8911affec93fc00000000000a94380000;
  0x000000000000ffec93180000936c00000000000092ac00000000ffe29120000a;
  0x93c0ffd8941a0000000000000000000a9408000092fafff69426fff694260000;
  0x9456000093c000009456ffba9126000000000000000000009456000000000000;
  0x0000000000000000000000000000000000000000000000000000000000000000;
  0x0000000000000000000000000000000000000000000000000000000000000000;
  0x0000000000000000000000000000000000000000000000000000000000000000;
  0x0000000000000000000000000000000000000000000000000000000000000000;
  0x0000000000000000000000000000000000000000000000000000000000000000;
  0x0000000000000000000000000000000000000000000000000000000000000000;
  0x0000000000000000000000000000000000000000000000000000000000000000;
  0x000000000000000000000000000000000000000a9408fff693f6000000000000;
  0x0000000000000000000000000000ffe294440000000000000000000000000000;
  0x0000ffe29438000000000000000000000000000000000000000000000000ffec;
  0x93cc0000000000000000fff693f6000000000000000000000000000000000000;
  0x00000000000000000000000000000000945cfff6943200000000000000000000;
  0x000000009408000093c0ffec930600000000000000000000000000000000fff6;
  0x93ccffec00000000943800000000ffd89438000000000000945c00000000ffec;
  0x9438fff600000000000000000000ffec00000000943800009408000000000000;
  0x000000009438000093e4ffec943800000000ffe2938affec936c000000000000;
  0x9408fff60000000000000000945c0000000000009408ffec9438ffd89444ffe2;
  0x936c00000000fff694380000945c000000000000936cfff693d8000000000000;
  0x000000000000000000000000000000000000000093d800009408fff694380000;
  0x0000fff6943200000000fff69438fff69438000000000000936c00009288ffec;
  0x93f60000942c00000000fff69372fff693720000000000000000000000000000;
  0x0000000093c00000945600009408000093e40000945c00000000000000000000;
  0x0000000000000000945c00000000000000000000945c000093fc000000000000;
  0x00000000000000000000ffd80000ffd89414ffec93fc00009438000000000000;
  0x0000000000000000945cffd894140000000000000000ffc492c400000000ffec;
  0x9444000094320000000000009390000000000000000000000000000000000000;
  0x0000000000000000943200000000000000000000000000000000000000000000;
  0x00000000000000000000000a9456000a94080000000000000000ffec94440000;
  0x9456ffba912cffce939c00009456000000000000000000000000000000000000;
  0x0000000000000000000000000000000000000000000000000000000000000000;
  0x00000000000000000000fff60000000a945c0000000000000000000000000000;
  0x000000000000000094380000941a00000000000093ea0000936c000000000000;
  0x00000000000000009432fff692f40000945c0000000000000000000000000000;
  0x00000000000000000000000000000000000000000000ffec945c000093f6000a;
  0x945c00000000ffec94560000000000000000ffd8941400000000ffe20000ffec;
  0x000000009438fff693fc00000000fff6000000000000ffd89414ffec9456ffb0;
  0x92c400000000ffce93de0000000000000000fff69456fff60000fff694560000;
  0x0000000000000000000000000000000000000000000000000000ffce94440000;
  0x0000ffd8000000000000fff693cc00000000ffec93f60000000000000000ffd8;
  0x9456ffe20000ffce0000ffa6914affba93c6ffce93c600000000000000000000;
  0x0000ffe294560000000000000000000000000000000000000000ffec94560000;
  0x00000000936cfff693f6000000000000000000000000fff69444ffec94440000;
  0x000000000000ffd89444ffe2944affec93f600000000ffc4923affce936cffe2;
  0x9378ffe293de0000000000000000fff60000ffec93c0ffe29318ffd892d60000;
  0x0000ffce93b4000000000000000000000000ffec945c00000000000000000000;
  0x936c00000000000094080000945c000000000000000000000000fff694260000;
  0x9438ffe2940800000000000000000000000000000000fffb925efff693cc0000;
  0x943800000000ffba945c000000000000000000000000ffba936cffe293900000;
  0x000000000000ffba92c4000094380000945c0000000000000000ffc493a20000;
  0x9372ffce93c000000000ffba9378ffd892e800000000000093c0ffe293900000;
  0x0000fff6000000000000ffec0000ffc493fcffa69390ffb09432000000000000;
  0x945c0000000000000000ffce0000fff600000000000000000000000000000000;
  0x00000000945c00000000000093e40000936cffe2944400009438000000000000;
  0x0000ffe29378ffec9378000000000000936cfff6938afff1925e000093ea0000;
  0x0000ffd893eaffec92e8000000000000000000000000fffb925efff69132fff6;
  0x92eefff6936cffce945cfff600000000945c0000000000000000000000000000;
  0x945c0000000000009438ffa69378ffce93ccffb09432ffa6926400000000ffce;
  0x94440000945cffb09444000094380000936cffba93c6ffc4944400000000ffb0;
  0x9318ffb09444ffba934e000000000000937800000000ff9c9384ffd800000000;
  0x0000ffba9444ffd894440000943800000000ffc49444ffd8938a00000000001e;
  0x916800009444ffa6931e00000000000000000000944400009444ffb09438ffba;
  0x0000ffba9444ffb0936cffe29456ffa693c000009438000093cc000093cc0000;
  0x93cc00000000ffd89138ffce918cffc49444000a93c6ffce940800000000ffd8;
  0x944400000000000000000000000000000000ffd8945c00000000ffb093720000;
  0x0000ffa1913effec93c0ffd893840000000000000000ffe2944400000000ffa6;
  0x93de00000000000000000000000000000000ffa693ccffe2931800000000ffc4;
  0x93cc00009288ffe2940800000000000a945cffe2943800000000ff9293cc0000;
  0x0000ffc49426000000000000000000000000ffe293ccffc493b4ffec93300000;
  0x000000000000ffce9444ffce944affd89444ffc4945c0000945c000000000000;
  0x945600000000ffd89438ffc493f00000000000000000ff8892c4000000000000;
  0x00000000000000000000ffd800000000000000000000ff7e944400000000ffe2;
  0x92c40000000000000000ff74938400000000ffb0000000000000ff9c93ccff9c;
  0x0000ffec944affc49144ffa693ccffec9444ffd8931e0000000000009444ffb0;
  0x9456ff74923aff8893fc00000000000000000000000000000000ff7e94440000;
  0x0000000000000000000000000000000000000000000000000000ffe293b40000;
  0x0000ffb09324ffe293b4ffec9444000a9312ffb0914affba92d600000000ffce;
  0x91e6ffd893f0ffe200000000000000000000ffc49318ffba939c000000000000;
  0x000000000000ffd893ccffec9408ffe292c4ffe293b400000000ffe292c4ffec;
  0x939c000000000000000000000000ffe2944400009150fff6936c000000000000;
  0x945c00000000000092340000915000000000ffec939000000000ffd893cc0000;
  0x93c000000000fff693f600009150000091a40000000000000000fff693d2ffd8;
  0x936c00009150ffe292c400000000ffec9444fff693f60000945c0000945cfff6;
  0x93f600000000fff6945cffec944a00000000fff693f6ffe292c4000000000000;
  0x9150fff69378fff6943200000000000092f4fff693f60000936c000092eeffe2;
  0x0000ffec0000ffec9390ffce93ccffce93ccffec93d200000000000000000000;
  0x0000ffec944afff693f6000091500000000000009150ffec9444000000000000;
  0x0000ffec93ccfff6945c0000936c0000945cfff693780000000000009372fff6;
  0x936c00000000000093eafff6936cffec00000000000000000000ffe293c0fff6;
  0x93eaffe2923a00000000000091500000945c000093720000942cfff693e40000;
  0x945600009234fff60000ffe293f60000915000009456000093d2000000000000;
  0x0000000000000000945c000000000000945c0000000000000000000093f60000;
  0x0000fff6945c00000000000000000000000000000000fff6945c000000000000;
  0x943200000000ffec9444000000000000000000000000000000000000941a0000;
  0x000000000000000093f6000093cc000000000000000000000000000a93f6ffec;
  0x00000014000000000000000a93c6001493cc00000000000000000000941a0000;
  0x943800000000ffec94440000000000000000fff693ccfff693cc000000000000;
  0x000000009390000093cc00000000000000000000000000000000000000000000;
  0x0000000000000000000000000000000000000000000000000000000000000000;
  0x0000000000000000000000000000000093cc00000000fff60000000000000000;
  0x0000000094380000000000000000000000000000000000000000000000000000;
  0x000000000000000000000000000000000000fff693f6000000000000945c0000;
  0x000000000000ffe2920a00000000000a93cc00009456ffc491d4000000000000;
  0x0000ffec0000000093f6ffec93d2fff600000000000000000000000000000000;
  0x000000009432000093fcffec9330ffc4915600000000ffd8943800000000ffec;
  0x93780000000000000000fff694320000945c0000000000009438000000000000;
  0x000000000000000000000000942600000000ffec944400009408fff600000000;
  0x0000000000000000945c00000000ffb093ccfff6945cffec9432ffce915cffce;
  0x9162ffd893d200009456001493e400149456ffec9390000093c600000000000a;
  0x000000000000000000000000000000000000000093e400000000fff600000000;
  0x0000fff6000000000000000093780000000000000000fff6938a00000000fff6;
  0x00000000000000000000fff6916800000000ffe293fc00000000000000000000;
  0x0000000093e4fff693c00000000000009456ffec940800000000ffba941a0000;
  0x0000fff600000000000000000000ffec93c600000000ffec939c000000000000;
  0x00000000000000000000ffe2944a00000000ffce93900000000000000000fff6;
  0x93f600000000ffe794020000000000000000fff693f6ff92916e000000000000;
  0x000000000000ff6a9174ffe29456ffec944affec93b4ff9c0000000000000000;
  0x00000000000000000000ff88930cffc4930cff7e000000000000ffb09414ffba;
  0x941a0000000000000000ffd894500000000000000000fff693f6ffec93f6ffb0;
  0x917aff889180ff9c923affec944a000000000000000000000000ffc4944affe2;
  0x9444000000000000000000000000000000000000000000000000000000000000;
  0x0000ffec91b0000000000000000000000000ffe294560000000000000000ffec;
  0x944400000000ffec93f60000000000000000ffe2937200000000000000000000;
  0x000000000000fff69432ffe293780000000000000000ffc491f8ffec93cc0000;
  0x00000000000000000000000000000000000000000000fff69432fff69414ffec;
  0x9186fff6937effd8936000000000000094560000000000009426fff600000000;
  0x0000fff6941affec945c00000000ffec9456ffec9456fff69456000000000000;
  0x000000000000ffe2941a0000941400009438ffec9456fff69432000094260000;
  0x0000fff69408fff6940e00000000000a937800000000fff6945c000000000000;
  0x00000000000000000000fff69414ffec9426ffec9456ffec9456000092beffba;
  0x93f60000945c000000000000000000000000fff6945c000093ae0000941afff6;
  0x945c00000000000093fc00000000000000000000000000000000000000000000;
  0x0000ffec941a00000000ffe2945600000000ffec945600009414ffec94080000;
  0x000000000000ffe293cc00000000ffec941400000000000000000000936c0000;
  0x0000ffe294140000000000000000fff6941a00009438ffec9456000000000000;
  0x0000ffec942600000000ffc4935a00000000ffec918c0000000000000000fff6;
  0x93f6000000000000943200000000ffec93fc0000000000000000fff6945c0000;
  0x0000ffe2939cfff693f600000000ffec944a00000000fff60000000094320000;
  0x945cfff693f6ffe293cc00000000ffec93cc00000000ffec9438ffec9432fff6;
  0x92b80000945600009432000000000000000000000000000000000000945c0000;
  0x00000000945600000000fff60000000000000000000000000000ffec94320000;
  0x000000000000ffd893ccfff69432fff6945cffe293f6ffe2939cfff6945c0000;
  0x0000000093900000939000000000000000000000000000000000000000000000;
  0x0000000000000000000000000000000000000000000000000000fff693f60000;
  0x0000fff693cc0000000000000000ffec937800000000fff60000000000000000;
  0x0000fff6942600000000ffec939c0000000000000000fff60000fff694380000;
  0x00000000000000009456ffec943200000000ffd8945600000000fff693fc0000;
  0x000000000000000000000000945cfff693f600000000000093d2000000000000;
  0x00000000000000000000ffec919200000000000000000000000000000000fff6;
  0x9408000000000000000000000000fff693cc0000000000000000000000000000;
  0x0000ffe2939c0000945c00000000000000000000000000000000000000000014;
  0x93e400009390ffec94500000000000000000fff693cc00000000000000000000;
  0x0000ffe2939c00000000000000000000000000000000fff60000fff693ccfff6;
  0x93cc000000000000000000009390000a93fc00000000ffec93f6000000000000;
  0x00000000000000000000000000000000000000000000000000000000936c0000;
  0x00000000000000000000fff6000000000000000000000000936c00000000fff6;
  0x00000000000000000000000093c0000000000000000000000000000000000000;
  0x945c000000000000000000000000000000000000945c00000000000000000000;
  0x000000000000000000000000000000000000ffec942cfff6945cffd89432ff88;
  0x91ce000000000000000000000000000000000000000000000000fff693f60000;
  0x923400000000000094560000000000000000000000000000000000000000ff9c;
  0x0000000000000000000000000000000000000000000000000000000000000000;
  0x000000000000001493e400000000000000000000000000000000000000000000;
  0x0000ffec94080000943800000000fff6940800000000ff560000ffec93cc0014;
  0x93fc0000000000000000fff693f6000000000000000000000000000000000000;
  0x0000000000000000000000000000000000000000000000000000000000000000;
  0x945c0000000000009198ffd8940800000000000000000000945c000000000000;
  0x000000000000fff693cc00000000000000000000000000000000000000000000;
  0x0000000000000000000000000000000000000000945600000000000000000000;
  0x945c00000000000000000000919effec944a00000000fff694260000945c0000;
  0x00000000945cfff6945600000000000000000000941400009438ffe2945cfff6;
  0x94560000000000000000000000000000945c000094080000000000009456ffc4;
  0x945c000000000000942600000000ffec94260000945c0000945c0000945c0000;
  0x9408000000000000945c0000000000000000000000000000945c000093c00000;
  0x0000fff694080000940800000000000000000000945600000000000000000000;
  0x9456ffec9456ffd8945cffba9432ffc4945cffec945c000000000000945c0000;
  0x0000000092ac0000000000000000000000000000000000000000000000000000;
  0x000000009456fff69456ffec93cc00000000000093d200000000000000000000;
  0x943800000000ffec93780000936cfff600000000945c00000000fff692280000;
  0x93720000945600000000000000000000945c0000922800009408000093c00000;
  0x94560000942600000000ffec93e4000000000000941a00000000000000000000;
  0x0000000094080000000000000000000000000000000000000000000000000000;
  0x0000fff6945c0000000000000000000000000000000000009438000000000000;
  0x000000000000ffce944400000000000000000000000000000000000000000000;
  0x0000000000000000000000000000000000000000000000000000000000000000;
  0x0000000000000000000000000000000000000000000000000000000000000000;
  0x00000000000000000000000093de0000936cffe20000ffe20000fff693f60000;
  0x0000000000000000000000000000000000000000000000000000000000000000;
  0x0000000000000000000000000000000000000000000000000000000000000000;
  0x0000000000000000000000000000ffe292c4000094440000945c000000000000;
  0x0000ffec936c0000000000000000000000000000000000000000000093720000;
  0x0000000000000000000000000000000000000000000000000000000000000000;
  0x0000000000000000945c000093d20000943800000000001493e4000000000000;
  0x000000000000000092dcfff69342000000000000000000000000000000000000;
  0x945cffec945c0000000000000000ffd8938a0000000000000000000000000000;
  0x94380000933000000000000a94080000000000000000001493c0000000000000;
  0x0000001e940e000093e4000a942c00000000000a93ea001493e4000093cc000a;
  0x93c0000a92ee000093cc000a945c00000000fff6945c0000941affd893ccffe2;
  0x0000000000000000000000000000000000000000945000009426000000000000;
  0x0000000000000000000000000000000000000000000000000000fff693cc0000;
  0x94440000000000000000000a94080000000000000000000094440000936c0000;
  0x945c000094560000000000009234000a9372000000000000000000000000000a;
  0x9426000091a4000094380000943800000000000093cc00000000000a94500000;
  0x0000000000000000000000000000000093840000000000000000000000000000;
  0x000000000000000000000014936c000094380000938a000093cc000000000000;
  0x000000000000000000000000943800000000001493c0000091aa000000000000;
  0x94380000000000149282000092ee00000000001e93ea00149384000094380000;
  0x0000000000000014938400149384000093e4001e928800000000000a93a2000a;
  0x91aa000000000000936c000092ee00000000000000000000000000009444001e;
  0x9288000091aa000091aa000a9378000093c00000000000000000001493de0000;
  0x9408000000000000000000000000000000000000943800000000000000000000;
  0x9438ffec9444000094380000000000000000000000000000936c000000000000;
  0x91b00000936c000000000000936c00000000001491b6000092e8000000000000;
  0x000000000000000000000000938a00009438000000000014938a000000000000;
  0x0000000000000000000000000000000000000000000000000000000000000000;
  0x0000000000000000000000000000000000000000000000000000000000000000;
  0x0000000000000000000000000000000000000000000000000000000000000000;
  0x0000000000000000000000000000000000000000000000000000000000000000;
  0x000000000000ffec944a00000000000000000000000000000000000000000000;
  0x0000000000000000000000000000ffec944a0000000000000000000000000000;
  0x0000000000000000000000000000000000000000000000000000000000000000;
  0x0000000000000000000000000000000000000000000000000000000000000000;
  0x0000fff693fcffe293c600009438000000000000000000000000ffec944affe2;
  0x93de00000000ffec9444ffe292c40000000000000000000000000000940effec;
  0x93cc0000000000000000000000000000000000000000fff69432ffec93c60000;
  0x0000ffec93ccffec944a00000000000000000000000000000000000000000000;
  0x0000000000000000000000000000ffce94500000000000000000ffc400000000;
  0x0000fff60000fff6936c00000000000092880000000000009438000000000000;
  0x0000fffb9264ffb0931e00000000000000000000000000000000000000000000;
  0x0000ffec93fc0000000000000000ffe292c40000000000000000000000000000;
  0x00000000000000000000000000000000000000000000ffec944a000000000000;
  0x0000000093cc0000000000009438ffd80000ffc493c6ffce93ccffba94440000;
  0x00000000000000000000ffd892d6000000000000000000000000000000000000;
  0x00000000000000000000ffd893b4ffce93deffec9444ffc4944afff600000000;
  0x0000ffec9444ffec93b400000000ffb091bcffce91c2fff6000000000000ff9c;
  0x0000ff9c91c2ffce91c8ffe2945600000000000000000000000000009234ffc4;
  0x93f0ffe293de00000000ffba93f0ffec93840000000000000000fff694560000;
  0x00000000000000000000ffd8945cffe2944affe29456ff7e91ce000000000000;
  0x941a0000000000000000fffb926400009432fff693fc000092ac000000000000;
  0x9456ffce93c600000000000000000000000000000000ff9c92ac000094560000;
  0x000000000000fff6945c00000000000000000000000000000000000000000032;
  0x9228000000000000000000000000000000000000000000000000ffe29456ffe2;
  0x93b400000000fff6945c00000000ff560000fff60000001e9456000000000000;
  0x00000000945c0000000000000000000000000000000000000000000000000000;
  0x000000000000000000000000000000000000ffec9390ffe291d4ffc492a6ff7e;
  0x91daffce93780000000000000000ffe2923a0000000000000000fff69432ffec;
  0x93fc00000000ff8800000000000000000000ffb0000000000000000000000000;
  0x9456001493e400000000ffec93900000000000000000ffec9390000000000000;
  0x000000009456ffec94500000000000000000fff69432ffec9456000093cc0014;
  0x000000000000000000000000000000000000ffd8945600000000000000000000;
  0x000000000000ffec9372000000000000000000000000ffa69378000000000000;
  0x00000000000000000000ffe20000000000000014936c00000000000000000000;
  0x0000000000000000000000000000000000000000000000000000ffce00000000;
  0x942c000000000000936cffba940e000093cc0000942600140000001e91e6ffc4;
  0x9456ff9293c0ff9294080014936c000000000000000000000000000000000000;
  0x0000000000000000000000000000000000000000000000000000000000000000;
  0x9444ffec000000149438000093cc0014932affe2945cfff693fc000000000000;
  0x944400000000ffec00000000000000000000000092faffec938a000000000000;
  0x000000000000ffec93c0ffec938a000a94080014943200000000000000000000;
  0x00000000000000000000000093cc00000000000093aefff693f6ffc49444ffec;
  0x9378ffd8936cff929426000093aeffd893f000000000ffd80000000093c00000;
  0x00000000937200009372000093ae000093eaffd89456ffec9444000000000000;
  0x0000000093aeffb093f000000000000000000014938a0000945c001494080000;
  0x000000000000fff693cc00000000001494380000000000000000000000000000;
  0x93aefff693cc00000000ffd89438ffe2938400149318000093c00000945cff74;
  0x945600009408001e943800000000000093cc00000000ffe29438ffe2945c0000;
  0x000000000000ffec0000000093ae00000000000093ae00000000ffec0000ffe2;
  0x0000ffe293f6ffe20000ffce9456ffba937effc4936c0000943800009444ffec;
  0x9444ffe293de000093ccffec93c6ffec9438ffec0000ff7e93f6001493c00014;
  0x93e4ffb0000000000000000093ae000a9438001493c0fff693f6ffec94560000;
  0x000000000000ffec0000ffc40000000093ae000a936cffec93c00000943e0000;
  0x0000ffa6934effd89438ffba93fcff8894560000943effce944400000000ffc4;
  0x00000000000000000000ffd8945cffd893780000943effd893ccffb093deffd8;
  0x000000000000000093cc0000943eff9c93f00000940e00000000ffec94440000;
  0x942c0000000000000000000091e0ffe29444000000000014938a00000000ffb0;
  0x91e6000000000000943e0000000000000000ffb0939cffce94080000936cffd8;
  0x93ccffec9438ff4c000000000000001493fc000093cc000a943800000000ffd8;
  0x0000ff9c00000000000000000000ffd800000000943e000000000000943e0000;
  0x000000000000000092faffe29456ffba93ccff9c9450ff929414ffba93ccfff6;
  0x945cffec93ccffc4944400000000fff693ccffd89318ffd89426ffec0000ff88;
  0x0000001493e40000936cff9c0000000000000000943effe293cc001493e4ffec;
  0x945cffc4000000000000ffe293c6ffd89426ffba94440000943effec945cffce;
  0x945600000000ffec93cc00000000000000000000945cfff6945c000000000000;
  0x0000fff6940e00000000ffec9408fff6945c00000000fffb91ec000000000000;
  0x945c00000000000093d2fff6945cffa693c600000000ffec9378000093d2ffe2;
  0x94380000945c000000000000945cfff694080000000000009438000000000000;
  0x93d2ffec943800009426ffec941a00000000fff69372000093e4000000000000;
  0x93780000945c000000000000000000009456ffe29390ffe29408ffba93ccffc4;
  0x93cc0000945c000000000000000000000000ffec940e00009408000000000000;
  0x000000000000000000000000945c0000000000000000fff69408000094380000;
  0x00000000945c00000000fff693780000943800000000fff6938afff6936cfff6;
  0x925e0000945600000000ffe293eafff692e80000945600000000000000000000;
  0x0000fff693e4fff60000fff69456ffec945cfff69438fff69408ffd893fc0000;
  0x00000000945c00000000ffec9390000093e4000093cc0000943800000000fff6;
  0x9408ffec9390000000000000000000000000fff693e40000945c000000000000;
  0x0000ffec9390000093c0000093cc000000000000945cfff693e4ffec9390ffec;
  0x931800000000ffd8923afff69426000000000000000000000000000000000000;
  0x9438ffec93c600000000fff693f6ffec944400000000ffec9390ffec944a0000;
  0x00000000000000009438fff69456000000000000000000009228fff694560000;
  0x9414fff6941afff6941a0000942c000000000000000000000000000000000000;
  0x0000ffec939000000000ffec9390fff693cc0000000000000000fff693cc0000;
  0x945c00000000000000000000000000000000ffec0000fff6944400000000fff6;
  0x9378fff6938afff6936c0000000000000000ffec940effec9372ffec944a0000;
  0x0000ffec939000009408fff69396000094080000940800000000fff694080000;
  0x9408ffe293c6ffec939000009426000000000000000000000000000000000000;
  0x000000000000000000000000000000000000fff6945c00000000ffec93c00000;
  0x000000000000000000000000000000000000000000000000000000000000ffce;
  0x937200000000000000000000000000009438000093cc00000000000000000000;
  0x93c00000000000000000000000000000000000000000000094080000945c0000;
  0x000000009438000a93c00000000000000000000093cc00000000000000000000;
  0x000000009456000091f2ffc40000ffce94380000000000000000000000000000;
  0x0000000094560000945c00000000000000000000000000000000000000000000;
  0x000000000000000000000000936c000000000000000000000000000093780000;
  0x000000000000000093180000936cfff694320000000000000000ffec936c0000;
  0x928800000000000000000000000000000000fffb93ba00000000000094380000;
  0x945600000000000000000000000000000000000000000000000000009456fff6;
  0x9438000a0000000093cc00000000ffec945c00009456001e91f8ffec94320000;
  0x9432ffec93300000945c00149456000000000000945600000000000000000000;
  0x0000000093d8ffe2940800009456ffce91fe0014945600000000000a945c0000;
  0x0000000000000000000000000000000000000000000000149456000000000000;
  0x93cc000000000000945600000000001493e40000000000000000000a945c0000;
  0x000000000000ffec94260000945c0000945cffec945cffec945cfff694560000;
  0x0000000000000000000000000000000094440000945600000000000094560000;
  0x00000000000000000000000093d8000000000000000000000000000000000014;
  0x9456000000000000000000000000000094380000000000000000000000000000;
  0x00000000923400000000000094560000000000009456000a945c000093c00000;
  0x945c000000000000945c0000945600000000ffd8000000009456000000000000;
  0x000000000000ffe79204000093ccfff693f600000000ffe2945c000000000000;
  0x0000ffec939000009444ffe293ccfff6000000000000ffec939c00000000ffec;
  0x939c000093f600009432ffec939cffce93cc00000000ffe293c600000000ffe2;
  0x93defff6943200000000fff693f6fff6945c0000000000000000000000000000;
  0x000000000000fff693ccffec945c00000000fff6940800009426000000000000;
  0x0000ffec93c60000000000000000000000000000000000000000000000000000;
  0x0000000000000000000000000000000000000000000000000000000000000000;
  0x0000000000000000000000000000000000000000000000000000000000000000;
  0x0000000000000000000000000000000000000000000000000000000000000000;
  0x0000000000000000000000000000000000000000000000000000000000000000;
  0x0000000000000000000000000000000000000000000000000000000000000000;
  0x0000000000000000000000000000fff69330ffd89426fff6925effd89456ffba;
  0x941400000000fff69456000093fcffec945c0000945c00009408ffec9456ffe2;
  0x93fc00000000ffec9456ffe29450fff694500000945c0000000000000000ffa6;
  0x93c0fff6945000000000ffec9456000000000000945c000a93d2000093e40000;
  0x93e400000000001493c00000939cffe2945c000a94320000000000149432000a;
  0x920affd39264ffec942cffec9456ffe2945c0000942600000000000000000000;
  0x0000000000000000000000000000000000000000000000000000000000000000;
  0x0000000000000000000000000000000000000000000000000000000000000000;
  0x0000000000000000000000000000000000000000000000000000000000000000;
  0x0000000000000000000000000000000000000000000000000000000000000000;
  0x0000000000000000000000000000000000000000000000000000000000000000;
  0x00000000000000000000000000000000000000000000fff6943200000000000a;
  0x0000000093fcfff6941a00000000000a9456fff6939c00149450fff192100000;
  0x945c0000000000000000000000000000945c001493fc0000939000009456ffce;
  0x944a00000000fff693fc00000000ffe200000000941a00009432fff694500000;
  0x9456000000000000000000000000000000000000941a00000000000094560000;
  0x0000000094500000945000000000000000000000941a00000000000094320000;
  0x0000000000000000000000000000000000000000000000000000000000000000;
  0x0000000000000000000000000000000000000000000000000000000000000000;
  0x0000000000000000000000000000000000000000000000000000000000000000;
  0x0000000000000000000000000000000000000000000000000000000000000000;
  0x0000000000000000000000000000000000000000000000000000000000000000;
  0x0000000000000000000000000000000000000000000000000000000000000000;
  0x945cffec9408fff6945cffe79216ffd89450000000000000941400000000fff6;
  0x00000000945600000000ffe2939cffd893f600000000ffe2945cffec9456ffec;
  0x9432000094560000000000000000ffce9426fff693fc00009438ffe29432fff6;
  0x93fc0000945600000000ffec94380000942600000000000f921c00000000ffec;
  0x000000000000000000000000000000000000ffe29432ffec93c0ffe2945cffec;
  0x9456000094260000000000000000000000000000000000000000000000000000;
  0x0000000000000000000000000000000000000000000000000000000000000000;
  0x0000000000000000000000000000000000000000000000000000000000000000;
  0x0000000000000000000000000000000000000000000000000000000000000000;
  0x0000000000000000000000000000000000000000000000000000000000000000;
  0x0000000000000000000000000000000000000000000000000000000000000000;
  0x00000000000000000000ffec945cffe29432fff69432000a0000000000000000;
  0x9456000093fcffe20000fff6945600000000000000000000000000000000ffec;
  0x9456ffe2941a00000000000093ccfff600000000000000000000000000000000;
  0x9414ffce943200000000000a94380000941a00000000fff6945c000000000014;
  0x93e40000941affb093cc0000945600000000000094560000945000000000ffec;
  0x93c0ffc4939c00000000fff69426000000000000000000000000000000000000;
  0x0000000000000000000000000000000000000000000000000000000000000000;
  0x0000000000000000000000000000000000000000000000000000000000000000;
  0x0000000000000000000000000000000000000000000000000000000000000000;
  0x0000000000000000000000000000000000000000000000000000000000000000;
  0x0000000000000000000000000000000000000000000000000000000000000000;
  0x0000000000000000000000000000fff60000ffec0000000093cc000093e4ffc4;
  0x94140000000000009456fff692640000936cffec93cc00009426fff693f60000;
  0x000000000000000000000000945c000000000000945cffec937800000000ff9c;
  0x940e000000000000000000149396000a9408000a945600149336000a94380000;
  0x943800000000000a94080014945c00000000000a000000000000001400000014;
  0x000000009426000093e4000a9222000094380000000000000000000000000000;
  0x0000000000000000000000000000000000000000000000000000000000000000;
  0x0000000000000000000000000000000000000000000000000000000000000000;
  0x0000000000000000000000000000000000000000000000000000000000000000;
  0x0000000000000000000000000000000000000000000000000000000000000000;
  0x0000000000000000000000000000000000000000000000000000000000000000;
  0x0000000000000000000000000000000000000000000000000000fff6945cffec;
  0x925e0000945c000a0000000000000000945600009456fff693c0ffe2940e0000;
  0x0000000000000000000000000000fff69426ffec9408fff693f6000093ccffce;
  0x9432000000000000000000000000ffd89426ffec945c000093d2000a9408fff6;
  0x940e00000000000094080000000000000000ffec9426ffd89330ffd8945c0000;
  0x0000ffe29408fff6937e00000000fff69426ffec945c00000000fff6945c0000;
  0x0000000000000000000000000000000000000000000000000000000000000000;
  0x0000000000000000000000000000000000000000000000000000000000000000;
  0x0000000000000000000000000000000000000000000000000000000000000000;
  0x0000000000000000000000000000000000000000000000000000000000000000;
  0x0000000000000000000000000000000000000000000000000000000000000000;
  0x0000000000000000000000000000000000000000000000000000000000000000;
  0x0000ffba93fcfff693fcffd8941affba935a00000000ffec000000000000ffd8;
  0x93aefff6000000000000ffe2945cfff6945600000000ffec9228ffce00000000;
  0x94560000945c0000000000000000ffb094560000945600149456ffd8945c0000;
  0x945c000a9426001493fc0000936c0000945600000000001e945c0014935affd8;
  0x0000001e945600000000001493c6001e9390ffce0000ffec937effd8945cffc4;
  0x00000000945c0000000000000000000000000000000000000000000000000000;
  0x0000000000000000000000000000000000000000000000000000000000000000;
  0x0000000000000000000000000000000000000000000000000000000000000000;
  0x0000000000000000000000000000000000000000000000000000000000000000;
  0x0000000000000000000000000000000000000000000000000000000000000000;
  0x0000000000000000000000000000000000000000000000000000000000000000;
  0x000000000000ffe293cc000093cc000a94380000945cffce9414000000000000;
  0x0000ffe20000000a0000ffec945cfff69408000000000000945c000000000000;
  0x0000000093c60000945cffec93fcffc4000000000000ffb0000000000000ffec;
  0x945c00000000000000000000945c000094260000000000000000000000000000;
  0x000000000000000093cc0000937e00000000000093720000936c000094380000;
  0x0000000000000000000000000000000000000000000000000000000000000000;
  0x0000000000000000000000000000000000000000000000000000000000000000;
  0x0000000000000000000000000000000000000000000000000000000000000000;
  0x0000000000000000000000000000000000000000000000000000000000000000;
  0x0000000000000000000000000000000000000000000000000000000000000000;
  0x0000000000000000000000000000000000000000000000000000000000000000;
  0x000000000000000000000000000000009438ffba9426ffce939cffb00000ff88;
  0x92a600000000ffce944400000000ffba9384fff693cc0000936cffc493fcffce;
  0x944400000000ffc4945cffb093c6ffce943200000000000093cc00000000ff60;
  0x922effe293fc00000000ffc493ccffec0000fff6000000000000ffd80000ffd8;
  0x93cc00000000000a94380000939cffba93c60000000000000000000093b40000;
  0x944affa6939cffba0000ffd89456ffc49408ffd8000000000000000000000000;
  0x0000000000000000000000000000000000000000000000000000000000000000;
  0x0000000000000000000000000000000000000000000000000000000000000000;
  0x0000000000000000000000000000000000000000000000000000000000000000;
  0x0000000000000000000000000000000000000000000000000000000000000000;
  0x0000000000000000000000000000000000000000000000000000000000000000;
  0x0000000000000000000000000000000000000000000000000000ffba93e4ffd8;
  0x92b8ffba9426ff92939000000000ffd8000000000000ffc4938afff693cc0000;
  0x936cffce0000ffd8000000000000ffce93c0ffba0000ffce9432fff693f60000;
  0x93cc00000000ff889426ffec945600000000ffd89408ffec0000fff600000000;
  0x0000ffd80000ffe29438000000000000000000000000ffc493cc000000000000;
  0x00000000944400140000ffba9438ffce942cffd89408ffc49408ffd800000000;
  0x0000000000000000000000000000000000000000000000000000000000000000;
  0x0000000000000000000000000000000000000000000000000000000000000000;
  0x0000000000000000000000000000000000000000000000000000000000000000;
  0x0000000000000000000000000000000000000000000000000000000000000000;
  0x0000000000000000000000000000000000000000000000000000000000000000;
  0x0000000000000000000000000000000000000000000000000000000000000000;
  0x0000ffe29354ffe20000000094260000000000000000ffec000000000000ffd8;
  0x9408fff6000000000000000000000000000000000000ffd80000ffce93c60000;
  0x9456000000000000943800000000000000000000945cfff60000ffce93fc0000;
  0x93d8000a9408fff693f6fff693f6fff693c0000000000000945c000093fcffb0;
  0x93de0000945c000000000000000000000000fff693ccffec9426ffba93900000;
  0x0000000092340000000000000000000000000000000000000000000000000000;
  0x0000000000000000000000000000000000000000000000000000000000000000;
  0x0000000000000000000000000000000000000000000000000000000000000000;
  0x0000000000000000000000000000000000000000000000000000000000000000;
  0x0000000000000000000000000000000000000000000000000000000000000000;
  0x0000000000000000000000000000000000000000000000000000000000000000;
  0x00000000000000000000fff60000000000000000000000000000000000000000;
  0x0000ffec941affe2923affe293fc000000000000000000000000000000000000;
  0x0000ffec94260000000000000000ffc4924000000000fff693f6000000000000;
  0x0000000000000000000000000000000000000000000000000000000000000000;
  0x000000000000000000000000000000000000000000000000000000000000ffec;
  0x944a000000000000000000000000000000000000000000000000000000000000;
  0x0000000000000000000000000000000000000000000000000000000000000000;
  0x0000000000000000000000000000000000000000000000000000000000000000;
  0x0000000000000000000000000000000000000000000000000000000000000000;
  0x0000000000000000000000000000000000000000000000000000000000000000;
  0x0000000000000000000000000000000000000000000000000000000000000000;
  0x000000000000000000000000000000009456000000000000944a000000000000;
  0x92460000000000000000000000000000000000009414fff69438000000000000;
  0x93c0000000000000000000000000000000000000941a000092ac000000000000;
  0x924c000000000000000000009390000000000000000000000000000000000000;
  0x0000000000000000000000000000000000000000000000000000000000000000;
  0x0000000000000000000000000000000000000000000000000000000000000000;
  0x0000000000000000000000000000000000000000000000000000000000000000;
  0x0000000000000000000000000000000000000000000000000000000000000000;
  0x0000000000000000000000000000000000000000000000000000000000000000;
  0x0000000000000000000000000000000000000000000000000000000000000000;
  0x0000000000000000000000000000000000000000000000000000000000000000;
  0x00000000000000000000000000000000000000000000fff6000000000000000a;
  0x9432000000000000925200000000000000000000000000000000fff600000000;
  0x00000000000000000000000000000000000000000000000000000000945cffe2;
  0x939c000000000000000000000000000000000000000000009432000a94560000;
  0x0000000000000000000000000000000000000000000000000000000000000000;
  0x0000000000000000000000000000000000000000000000000000000000000000;
  0x0000000000000000000000000000000000000000000000000000000000000000;
  0x0000000000000000000000000000000000000000000000000000000000000000;
  0x0000000000000000000000000000000000000000000000000000000000000000;
  0x0000000000000000000000000000000000000000000000000000000000000000;
  0x0000000000000000000000000000000000000000000000000000000000000000;
  0x0000000000000000000000000000000000000000000000000000000000000000;
  0x000000009456ffe293cc0000945600000000000000000000000000000000ffec;
  0x9456ffce940e000000000000000000009456000000000000942cffe294560000;
  0x000000009456ffb0944400000000001493e40000943200000000001e94560000;
  0x945600009456000000000000000000000000000000000000943200000000ffd8;
  0x0000ffb00000001493e4ffb00000ffb0000000009456ffec944affec941a0000;
  0x0000ffec00000000000000000000000000000000000000000000000000000000;
  0x0000000000000000000000000000000000000000000000000000000000000000;
  0x0000000000000000000000000000000000000000000000000000000000000000;
  0x0000000000000000000000000000000000000000000000000000000000000000;
  0x0000000000000000000000000000000000000000000000000000000000000000;
  0x0000000000000000000000000000000000000000000000000000000000000000;
  0x0000000000000000000000009432000093c600000000ffe29258000000000000;
  0x0000ffd894560000000000009438000094560000000000000000000000000000;
  0x00000000000000000000000093fcffd800000000000000000000000000000000;
  0x00000000945c00000000000000000000000000000000fff693f6000000000000;
  0x0000000000000000000000000000000000000000000000000000000000000000;
  0x93cc000000000000000000009444000000000000000000000000000000000000;
  0x0000000000000000000000000000000000000000000000000000000000000000;
  0x0000000000000000000000000000000000000000000000000000000000000000;
  0x0000000000000000000000000000000000000000000000000000000000000000;
  0x0000000000000000000000000000000000000000000000000000000000000000;
  0x0000000000000000000000000000000000000000000000000000000000000000;
  0x0000000000000000000000000000000000000000000000000000000000000000;
  0x0000000000000000000000000000000000000000000000000000000000000000;
  0x0000000000000000000000000000000000000000000000000000000000000000;
  0x000000000000000000000000000000000000000000000000000000000000fff6;
  0x93f6000000000000000000000000000000000000000000000000000000000000;
  0x0000000000000000000000000000000000000000000000000000000000000000;
  0x0000000000000000000000000000000000000000000000000000000000000000;
  0x0000000000000000000000000000000000000000000000000000000000000000;
  0x0000000000000000000000000000000000000000000000000000000000000000;
  0x0000000000000000000000000000000000000000000000000000000000000000;
  0x0000000000000000000000000000000000000000000000000000000000000000;
  0x000000000000000000000000000000000000000000000000000000000000000a;
  0x93cc00000000ffec945600000000000000000000000000000000000094560000;
  0x000000000000000000000000000000000000000000000000000000000000ffd8;
  0x944a000000000000000000000000000000000000000000000000000000000000;
  0x0000000000000000000000000000000000000000000000000000000000000000;
  0x0000000000000000000000000000000000000000000000000000000000000000;
  0x0000000000000000000000000000000000000000000000000000000000000000;
  0x0000000000000000000000000000000000000000000000000000000000000000;
  0x0000000000000000000000000000000000000000000000000000000000000000;
  0x0000000000000000000000000000000000000000000000000000000000000000;
  0x0000000000000000000000000000000000000000000000000000000000000000;
  0x0000000000000000000000000000000000000000000000000000000000000000;
  0x0000000000000000000000000000000000000000000000000000000000000000;
  0x0000000000000000000000000000000000000000000000000000000000000000;
  0x0000000000000000000000000000000000000000000000000000000000000000;
  0x0000000000000000000000000000000000000000000000000000000000000000;
  0x0000000000000000000000000000000000000000000000009438000000000000;
  0x0000000000000000000000000000000000000000000000000000000000000000;
  0x0000000000000000000000000000000000000000000000000000000000000000;
  0x0000000000000000000000000000000000000000000000000000000000000000;
  0x0000000000000000000000000000000000000000000000000000000000000000;
  0x0000000000000000000000000000000000000000000000000000000000000000;
  0x0000000000000000000000000000000000000000000000000000000000000000;
  0x000000000000ffec000000000000000093cc00000000ffe29456000000000000;
  0x0000fff69432000a945cffe20000000000000000000000000000000000000000;
  0x00000000925e0000945c00009456ffe2940e00000000ffe2945c000a9426ffec;
  0x943200059264000000000000945c000093e40000942600000000000000000000;
  0x000000000000000000000000945600000000000093c00000945c000000000000;
  0x0000000592640000000000000000000000000000000000000000000000000000;
  0x0000000000000000000000000000000000000000000000000000000000000000;
  0x0000000000000000000000000000000000000000000000000000000000000000;
  0x0000000000000000000000000000000000000000000000000000000000000000;
  0x0000000000000000000000000000000000000000000000000000000000000000;
  0x0000000000000000000000000000000000000000000000000000000000000000;
  0x000000000000000000000000000000000000fff6943200000000fff694320000;
  0x000000000000000000000000000000000000ffec945cfff693f600000000fff6;
  0x937800000000fff69456000000000000000000000000ffc493fc000000000000;
  0x0000000000000000000000009432000000000000000000000000000000000000;
  0x0000000000000000000000000000000000000000000000000000000000000000;
  0x00000000000000000000fff60000000000000000000000000000000000000000;
  0x0000000000000000000000000000000000000000000000000000000000000000;
  0x0000000000000000000000000000000000000000000000000000000000000000;
  0x0000000000000000000000000000000000000000000000000000000000000000;
  0x0000000000000000000000000000000000000000000000000000000000000000;
  0x0000000000000000000000000000000000000000000000000000000000000000;
  0x0000000000000000000000000000000000000000000000000000000000000000;
  0x0000000000000000000000000000000000000000000000000000000000000000;
  0x000000000000000000000000000000000000000000000000000000000000fff6;
  0x93f6000000000000000000000000000000000000000000000000000000000000;
  0x0000000000000000000000000000000000000000000000000000000000000000;
  0x0000000000000000000000000000000000000000000000000000000000000000;
  0x0000000000000000000000000000000000000000000000000000000000000000;
  0x0000000000000000000000000000000000000000000000000000000000000000;
  0x0000000000000000000000000000000000000000000000000000000000000000;
  0x0000000000000000000000000000000000000000000000000000000000000000;
  0x0000000000000000000000000000000000000000000000000000000000000000;
  0x0000000000000000000000000000000000000000000000000000000000000014;
  0x926afff192ca000093cc00000000000093ea0000000000000000005a93cc0000;
  0x927000329276fff60000000000000000000000000000fff69330ffe293780000;
  0x00000032928e0046927c00000000ffe2938a001e92820046930c000a9330001e;
  0x92880032928e0032931e000093780014938400000000003c9294005093a20000;
  0x93c000509312000000000046929a005a92a0000094380000936c000a93300000;
  0x9378001e936c0000000000000000000000000000000000000000000000000000;
  0x0000000000000000000000000000000000000000000000000000000000000000;
  0x0000000000000000000000000000000000000000000000000000000000000000;
  0x0000000000000000000000000000000000000000000000000000000000000000;
  0x0000000000000000000000000000000000000000000000000000000000000000;
  0x0000000000000000000000000000000000000000000000000000000000000000;
  0x0000000000000000936c000000000000000000000000ffec9438000000000000;
  0x00000000000000000000fff693960000945c0000945cfff693cc000000000000;
  0x9408000000000000000000000000fff6940800000000ffd893f00000945cfff6;
  0x9378fff6945c00000000000094080000000000000000000093d8fff600000000;
  0x945c00000000fff693780000000000000000000094380000000000000000fff6;
  0x93ccfff6945c0000000000000000000000000000000000000000000000000000;
  0x0000000000000000000000000000000000000000000000000000000000000000;
  0x0000000000000000000000000000000000000000000000000000000000000000;
  0x0000000000000000000000000000000000000000000000000000000000000000;
  0x0000000000000000000000000000000000000000000000000000000000000000;
  0x0000000000000000000000000000000000000000000000000000000000000000;
  0x0000000000000000000000000000000000000000945c00000000000000000000;
  0x0000ffec00000000000000000000000000000000000000000000000000000000;
  0x0000fff693f6000093c000000000000000000000000000000000000000000000;
  0x0000000000000000000000000000000000000000000000000000000000000000;
  0x945cfff693f60000000000000000ffce930c0000000000000000000000000000;
  0x000000000000000093e40000936c000000000000000000000000000000000000;
  0x0000000000000000000000000000000000000000000000000000000000000000;
  0x0000000000000000000000000000000000000000000000000000000000000000;
  0x0000000000000000000000000000000000000000000000000000000000000000;
  0x0000000000000000000000000000000000000000000000000000000000000000;
  0x0000000000000000000000000000000000000000000000000000000000000000;
  0x00000000000000000000000000000000000000000000000093ea000a00000000;
  0x000000000000000093e40000000000149414001492ac001493e40000942c0000;
  0x943800000000000000000000000000000000001494260000000000009408ffe2;
  0x9426001493e4ffec93c600000000ffe200000000945600000000000a94080000;
  0x945600000000000094080000945600000000000093e400000000ffec939c0000;
  0x0000ffec94560000945c000093cc00000000fff6945c00009438000a94560000;
  0x0000000000000000000000000000000000000000000000000000000000000000;
  0x0000000000000000000000000000000000000000000000000000000000000000;
  0x0000000000000000000000000000000000000000000000000000000000000000;
  0x0000000000000000000000000000000000000000000000000000000000000000;
  0x0000000000000000000000000000000000000000000000000000000000000000;
  0x0000000000000000000000000000000000000000000000000000000000000000;
  0x00000000945c000000000000000000000000ffec000000000000000000000000;
  0x000000000000000000000000000000000000fff694500000945c000000000000;
  0x00000000000000000000fff693f6000093cc00000000ffd89318000094140000;
  0x000000000000ffec939c000000000000945c0000936c00000000000093e4ffe2;
  0x9444ffd892a600000000000092ac0000941a000000000000945cffec94560000;
  0x0000000000000000000000000000000000000000000000000000000000000000;
  0x0000000000000000000000000000000000000000000000000000000000000000;
  0x0000000000000000000000000000000000000000000000000000000000000000;
  0x0000000000000000000000000000000000000000000000000000000000000000;
  0x0000000000000000000000000000000000000000000000000000000000000000;
  0x0000000000000000000000000000000000000000000000000000000000000000;
  0x000000000000000092b2fff693fc00000000ffec92b800009438000000000000;
  0x00000000945c0000940effe29438fff693780000000000000000000000000000;
  0x0000fff692be000000000000936cffba92c40000000000009438000000000000;
  0x9438000a92ca00000000000000000000945c0000943800000000000000000000;
  0x00000000000000009426000000000000000000009378000a9438000000000000;
  0x93c0000592d000000000000a945c000000000000000000000000000000000000;
  0x0000000000000000000000000000000000000000000000000000000000000000;
  0x0000000000000000000000000000000000000000000000000000000000000000;
  0x0000000000000000000000000000000000000000000000000000000000000000;
  0x0000000000000000000000000000000000000000000000000000000000000000;
  0x0000000000000000000000000000000000000000000000000000000000000000;
  0x000000000000000000000000000000009372000000000000936c000000000000;
  0x94560000000000000000fff6945600000000ffe29408fff693fc00000000ffec;
  0x939c00000000ffec931e000000000000940800009456ffd8936c000000000000;
  0x936c000093d8ffe2945cffe292d6000000000000945cffe29390000093c00000;
  0x000000000000000093d8ffec0000000092dcffec936000000000ffec93c0fff6;
  0x9426000000000000936cffd892e2000000000000000000000000000000000000;
  0x0000000000000000000000000000000000000000000000000000000000000000;
  0x0000000000000000000000000000000000000000000000000000000000000000;
  0x0000000000000000000000000000000000000000000000000000000000000000;
  0x0000000000000000000000000000000000000000000000000000000000000000;
  0x0000000000000000000000000000000000000000000000000000000000000000;
  0x00000000000000000000000000000000000000000000000093ea000000000000;
  0x94080000945cfff694080000000000000000000094440000945cffec93060000;
  0x940800000000000000000000000000009438ffec93cc0000000000009456fff6;
  0x92e800000000fff693e4000000000000936c0000000000009438000000000000;
  0x93c0fff69408000092ee000000000000000000000000000093e40000936c0000;
  0x0000000093e40000936c0000943800009438000094380000945c000000000000;
  0x0000000000000000000000000000000000000000000000000000000000000000;
  0x0000000000000000000000000000000000000000000000000000000000000000;
  0x0000000000000000000000000000000000000000000000000000000000000000;
  0x0000000000000000000000000000000000000000000000000000000000000000;
  0x0000000000000000000000000000000000000000000000000000000000000000;
  0x0000000000000000000000000000000000000000000000000000000000000000;
  0x936cffec9432000092f4000093d2001493c00000000000000000fff6941affec;
  0x941affd800000000000000000000000000000000000000009456ffe2945c0000;
  0x0000000093ccffba93cc000000000000945c0000000000009438000000000000;
  0x0000000a94380000940e00009426000000000000000000000000000000000000;
  0x92fa00009414000000000000940800009456fff693f600009426000000000000;
  0x93cc0000945c0000000000000000000000000000000000000000000000000000;
  0x0000000000000000000000000000000000000000000000000000000000000000;
  0x0000000000000000000000000000000000000000000000000000000000000000;
  0x0000000000000000000000000000000000000000000000000000000000000000;
  0x0000000000000000000000000000000000000000000000000000000000000000;
  0x0000000000000000000000000000000000000000000000000000000000000000;
  0x000000000000ffe293cc00000000000093ccfff60000ffc49456000000000000;
  0x0000ffec943200000000ffe29378fff69438fff693c600000000000000000000;
  0x00000000000000000000fff6945cffce931800000000ff92930000000000ffec;
  0x93f0000a93cc00009438000000000000000000000000ffec93ccffec939c0000;
  0x0000000093ccfff693f60000000000000000000000000000000000000000ffec;
  0x9318000a93cc0000000000000000000000000000000000000000000000000000;
  0x0000000000000000000000000000000000000000000000000000000000000000;
  0x0000000000000000000000000000000000000000000000000000000000000000;
  0x0000000000000000000000000000000000000000000000000000000000000000;
  0x0000000000000000000000000000000000000000000000000000000000000000;
  0x0000000000000000000000000000000000000000000000000000000000000000;
  0x000000000000000000000000000000000000000093cc00000000000094320000;
  0x00000000000000000000ffec0000000093cc00000000fff693f6000000000000;
  0x000000000000000000000000000000000000000000000000000000000000ffce;
  0x93de00000000ffd893f00000945c000000000000000000000000000000000000;
  0x9438ffec94440000000000000000fff693ccffd8939000000000ffec93ccfff6;
  0x943800000000000093060000945c000000000000000000000000000000000000;
  0x0000000000000000000000000000000000000000000000000000000000000000;
  0x0000000000000000000000000000000000000000000000000000000000000000;
  0x0000000000000000000000000000000000000000000000000000000000000000;
  0x0000000000000000000000000000000000000000000000000000000000000000;
  0x0000000000000000000000000000000000000000000000000000000000000000;
  0x000000000000000000000000000000000000000000000000000000000000000a;
  0x93f600000000ffd8943200000000000000000000000000000000000000000000;
  0x9438000000000000936c00000000000000000000000000000000000000000000;
  0x93e400000000000000000000000000000000000093b400009444000000000000;
  0x0000000000000000000000000000000000000000000000000000000000000000;
  0x000000000000000000000000000000000000000093b400009438000000000000;
  0x0000000000000000000000000000000000000000000000000000000000000000;
  0x0000000000000000000000000000000000000000000000000000000000000000;
  0x0000000000000000000000000000000000000000000000000000000000000000;
  0x0000000000000000000000000000000000000000000000000000000000000000;
  0x0000000000000000000000000000000000000000000000000000000000000000;
  0x0000000000000000000000000000000000000000000000000000000000000000;
  0x0000ffec93ccfff60000fff69378000093ccffe294440000000000000000ffd8;
  0x93deffe294380000936c0000000000000000ffd89312ffec938affe293cc0000;
  0x0000000093ccffd89378ffe293c60000937800009438ffc493f0ffe293780000;
  0x000000009444ffce930cffec93c6fff69438ffd893c600009438ffd89312ffba;
  0x93f0ffd8931800000000ffc4931effd893f000009438fff6936cffe2938a0000;
  0x9378000000000000000000000000000000000000000000000000000000000000;
  0x0000000000000000000000000000000000000000000000000000000000000000;
  0x0000000000000000000000000000000000000000000000000000000000000000;
  0x0000000000000000000000000000000000000000000000000000000000000000;
  0x0000000000000000000000000000000000000000000000000000000000000000;
  0x0000000000000000000000000000000000000000000000000000000000000000;
  0x00000000000000000000fff69438000000000000943800000000ffe294440000;
  0x000000000000ffe293de00000000000094380000000000000000ffd893defff6;
  0x9396fff693f60000000000000000000000000000936cfff693cc00000000ffb0;
  0x93f0ffec94080000000000000000ffce93b40000936cfff693d2ffe2944a0000;
  0x0000ffba9324ffb0932affc4000000000000ffce93ccffd8000000009438ffec;
  0x9330ffec93c00000000000000000000000000000000000000000000000000000;
  0x0000000000000000000000000000000000000000000000000000000000000000;
  0x0000000000000000000000000000000000000000000000000000000000000000;
  0x0000000000000000000000000000000000000000000000000000000000000000;
  0x0000000000000000000000000000000000000000000000000000000000000000;
  0x0000000000000000000000000000000000000000000000000000000000000000;
  0x0000000000000000000000000000ffec94380000945c0000945cfff69336fff6;
  0x94080000000000000000000a945c0000945cffd89438fff693f60000945c0000;
  0x93d200000000000093d2fff6000000000000ffec9390ffb09444000000000014;
  0x933c00000000ffe2943800149342000000000000945cffec93780000945c0000;
  0x9408000000000000000000000000000093e4ffec940800000000ffec936c0000;
  0x9372000093d200000000000000000000945c0000000000000000000000000000;
  0x0000000000000000000000000000000000000000000000000000000000000000;
  0x0000000000000000000000000000000000000000000000000000000000000000;
  0x0000000000000000000000000000000000000000000000000000000000000000;
  0x0000000000000000000000000000000000000000000000000000000000000000;
  0x0000000000000000000000000000000000000000000000000000000000000000;
  0x0000000000000000000000000000000000000000000000000000000000000000;
  0x000000000000000000000000000000000000ffd8934800000000000000000000;
  0x000000000000000000000000000000000000ffc49444ffec9390000000000000;
  0x000000000000ff88934e00000000000000000000000000000000000000000000;
  0x0000000000000000000000000000000000000000000000000000000000000000;
  0x0000000000000000000000000000000000000000000000000000000000000000;
  0x0000000000000000000000000000000000000000000000000000000000000000;
  0x0000000000000000000000000000000000000000000000000000000000000000;
  0x0000000000000000000000000000000000000000000000000000000000000000;
  0x0000000000000000000000000000000000000000000000000000000000000000;
  0x0000000000000000000000000000000000000000000000000000000000000000;
  0x0000000000000000000000000000000000000000000000000000000000000000;
  0x93c0ffec943200009408ffec0000ffec94080000000000000000000000000000;
  0x0000ffd89438fff693c000009438fff693e400000000ffec0000000000000000;
  0x00000000942cffc4938400000000000000000000000000000000000093900000;
  0x0000000000000000000000000000000000000000000000000000000000000000;
  0x000000000000000000000000000000000000fff69432000093c0fff69432fff6;
  0x94320000936c0000000000000000000000000000000000000000000000000000;
  0x0000000000000000000000000000000000000000000000000000000000000000;
  0x0000000000000000000000000000000000000000000000000000000000000000;
  0x0000000000000000000000000000000000000000000000000000000000000000;
  0x0000000000000000000000000000000000000000000000000000000000000000;
  0x0000000000000000000000000000000000000000000000000000000000000000;
  0x0000000000000000000000000000000000000000000000000000000000000000;
  0x00000000000000000000fff69438000000000000000000000000000000000000;
  0x0000000000000000000000000000000094080000000000000000000000000000;
  0x000000000000000000000000945c000000000000000000000000000000000000;
  0x0000000000000000000000000000000000000000000000000000000000000000;
  0x0000000000000000000000000000000000000000000000000000000000000000;
  0x0000000000000000000000000000000000000000000000000000000000000000;
  0x0000000000000000000000000000000000000000000000000000000000000000;
  0x0000000000000000000000000000000000000000000000000000000000000000;
  0x0000000000000000000000000000000000000000000000000000000000000000;
  0x0000000000000000000000000000000000000000000000000000000000000000;
  0x0000000000000000000000000000ffec9408fff6940800000000fff69456ffc4;
  0x93600000000000000000ffec9426ffe293ccffe29432fff69456000000000000;
  0x00000000000000000000ffec93540000945cffec935affce93fc00000000ffa6;
  0x93600000000000000000000a93cc000000000000945600149366fff69432fff6;
  0x93f60000000000000000001e941a000093c00000939000000000000a94080014;
  0x93c0fff6943200000000000a93cc000000000000000000000000000000000000;
  0x0000000000000000000000000000000000000000000000000000000000000000;
  0x0000000000000000000000000000000000000000000000000000000000000000;
  0x0000000000000000000000000000000000000000000000000000000000000000;
  0x0000000000000000000000000000000000000000000000000000000000000000;
  0x0000000000000000000000000000000000000000000000000000000000000000;
  0x00000000000000000000000000000000000000000000000093c0ffd8945cfff6;
  0x9408ffe293e4ffba9420ffec94500000000000009456ffc49378fff693cc0000;
  0x936cffe293ccfff69408fff693ccffec93e4ffce9432ffec9390000094560000;
  0x936c00009456ff9293720000945600000000fff6937800009426000094260000;
  0x0000ffec945cffe793960000937e001493e4000093f6ffce9384000000000000;
  0x00000000000000149408ffe293e4ffd893c0fff6938affec93ea0000942c0000;
  0x0000000000000000000000000000000000000000000000000000000000000000;
  0x0000000000000000000000000000000000000000000000000000000000000000;
  0x0000000000000000000000000000000000000000000000000000000000000000;
  0x0000000000000000000000000000000000000000000000000000000000000000;
  0x0000000000000000000000000000000000000000000000000000000000000000;
  0x0000000000000000000000000000000000000000000000000000000000000000;
  0x0000fff6940800000000fff6945600000000fff694320000000000009414ffec;
  0x939000000000fff69396000000000000000000000000000093c0ffec939c0000;
  0x0000000000000000000000000000ffb093e400000000000093cc000094440000;
  0x0000000000000014942600000000000093e4ffec93cc000000000000944affe2;
  0x93a2000000000000000000149444001493e4000093e4fff693e4000094440000;
  0x93c0000000000000000000000000000000000000000000000000000000000000;
  0x0000000000000000000000000000000000000000000000000000000000000000;
  0x0000000000000000000000000000000000000000000000000000000000000000;
  0x0000000000000000000000000000000000000000000000000000000000000000;
  0x0000000000000000000000000000000000000000000000000000000000000000;
  0x0000000000000000000000000000000000000000000000000000000000000000;
  0x00000000000000000000ffe2945c00000000ffe2940effba9456000000000000;
  0x943e00000000ffc400000000000000000000ffec93fc0000945c00000000fff6;
  0x9426ffd89414000093a8000000000000000000000000ff7493c6000000000000;
  0x000000000000000000000000000000000000000093aefff693f600000000001e;
  0x940800000000ffe2945600000000ffb000000000000000000000ffec9456ffe2;
  0x943200000000ffec945600000000000000000000000000000000000000000000;
  0x0000000000000000000000000000000000000000000000000000000000000000;
  0x0000000000000000000000000000000000000000000000000000000000000000;
  0x0000000000000000000000000000000000000000000000000000000000000000;
  0x0000000000000000000000000000000000000000000000000000000000000000;
  0x0000000000000000000000000000000000000000000000000000000000000000;
  0x0000000000000000000000000000000000000000000000000000000000000000;
  0x0000000000000000000000000000000000000000000000000000000000000000;
  0x00000000000000000000000000000000000000000000ffe293cc000000000000;
  0x0000000000000000000000000000000000000000000000000000000000000000;
  0x0000000000000000000000000000000000000000000000000000000000000000;
  0x0000000000000000000000000000000000000000000000000000000000000000;
  0x0000000000000000000000000000000000000000000000000000000000000000;
  0x0000000000000000000000000000000000000000000000000000000000000000;
  0x0000000000000000000000000000000000000000000000000000000000000000;
  0x0000000000000000000000000000000000000000000000000000000000000000;
  0x0000000000000000000000000000000000000000000000000000000000000000;
  0x0000000000000000000000000000000000000000000000000000000000000000;
  0x0000000000000000000000000000000000000000000000000000000000000000;
  0x0000000000000000000000000000000000000000000000000000000000000000;
  0x0000000000000000000000000000000000000000000000000000000000000000;
  0x000000000000fff693f600000000000000000000000000000000000000000000;
  0x0000000000000000000000000000fff600000000000000000000000094080000;
  0x0000000000000000000000000000000000000000000000000000000000000000;
  0x0000000000000000000000000000000000000000000000000000000000000000;
  0x0000000000000000000000000000000000000000000000000000000000000000;
  0x0000000000000000000000000000000000000000000000000000000000000000;
  0x0000000000000000000000000000000000000000000000000000000000000000;
  0x0000000000000000000000000000000000000000000000000000000000000000;
  0x000000000000000000000000000000000000000000000000000000000000ffe2;
  0x93b400000000000094380000000000000000fff69444000093baffec944a0000;
  0x0000000000000000000000000000ffec944400000000ffce93de0000945c0000;
  0x000000000000ffe294440000000000009408ffec944400000000ffec93ccffe2;
  0x93deffe293fc00000000ffe29432ffec943800000000000093c0000094080000;
  0x9438000000000000000000000000000000000000000000000000000000000000;
  0x0000000000000000000000000000000000000000000000000000000000000000;
  0x0000000000000000000000000000000000000000000000000000000000000000;
  0x0000000000000000000000000000000000000000000000000000000000000000;
  0x0000000000000000000000000000000000000000000000000000000000000000;
  0x0000000000000000000000000000000000000000000000000000000000000000;
  0x0000000000000000945cfff6945c0000945c0000945c00000000000094560000;
  0x000000009456ffd893c6ffec9456000000000000000000000000fff693f60000;
  0x93e4ffec93cc00000000000093d2ffe2000000000000fff693f6000000000000;
  0x0000000000000000945c00000000000000000000000000009456000093e40000;
  0x000000009432ffd8944400000000000000000000000000000000000000000000;
  0x942c0000000000009438000093d8000000000000000000000000000000000000;
  0x0000000000000000000000000000000000000000000000000000000000000000;
  0x0000000000000000000000000000000000000000000000000000000000000000;
  0x0000000000000000000000000000000000000000000000000000000000000000;
  0x0000000000000000000000000000000000000000000000000000000000000000;
  0x0000000000000000000000000000000000000000000000000000000000000000;
  0x0000000000000000000000000000000000000000945c00000000000000000000;
  0x0000ffec944a00000000fff6945cffec944a0000000000000000000000000000;
  0x0000000000000000940800000000000000000000000000000000000000000000;
  0x000000000000ffce94440000945c0000000000000000ffec944a000094380000;
  0x9408ffec944400000000ffec9444ffe293deffec000000000000000093e40000;
  0x945600000000000093ea0000945c000000000000000000000000000000000000;
  0x0000000000000000000000000000000000000000000000000000000000000000;
  0x0000000000000000000000000000000000000000000000000000000000000000;
  0x0000000000000000000000000000000000000000000000000000000000000000;
  0x0000000000000000000000000000000000000000000000000000000000000000;
  0x0000000000000000000000000000000000000000000000000000000000000000;
  0x0000000000000000000000000000000000000000000000000000ffce945cffce;
  0x93e4fff6942c0000000000000000000000000000000000000000ff9c00000000;
  0x0000000000000000000000000000ffd893ea000000000000000000000000ff92;
  0x000000000000000000000000000000000000ffc493f0ffec0000000000000000;
  0x000000000000ffe293f600000000000000000000000000000000000000000000;
  0x00000000000000000000ffec93fcffe29408ffba940e00000000ffd800000000;
  0x0000000000000000000000000000000000000000000000000000000000000000;
  0x0000000000000000000000000000000000000000000000000000000000000000;
  0x0000000000000000000000000000000000000000000000000000000000000000;
  0x0000000000000000000000000000000000000000000000000000000000000000;
  0x0000000000000000000000000000000000000000000000000000000000000000;
  0x0000000000000000000000000000000000000000000000000000000000000000;
  0x0000000000000000000000000000000000000000000000000000000000000000;
  0x0000000000000000000000000000000000000000000000000000000000000000;
  0x0000000000000000000000000000000000000000000000000000000000000000;
  0x0000000000000000000000000000000000000000000000000000000000000000;
  0x00000000000000000000000000000000000000000000ffec9456000000000000;
  0x0000000000000000000000000000000000000000000000000000000000000000;
  0x0000000000000000000000000000000000000000000000000000000000000000;
  0x0000000000000000000000000000000000000000000000000000000000000000;
  0x0000000000000000000000000000000000000000000000000000000000000000;
  0x0000000000000000000000000000000000000000000000000000000000000000;
  0x0000000000000000000000000000000000000000000000000000000000000000;
  0x00000000000000000000ffec9432fff693fcfff19402000a9408000000000000;
  0x0000fff69408ffec940effe29456000000000000000000000000000000000000;
  0x9456ffe2945c0000000000000000ffc494260000000000000000000000000000;
  0x945600009432000000000000000000009414000000000000945c000000000000;
  0x00000014941a0000942000009456000000000000945c000a9426000000000000;
  0x942c00009432000000000000945c000000000000000000000000000000000000;
  0x0000000000000000000000000000000000000000000000000000000000000000;
  0x0000000000000000000000000000000000000000000000000000000000000000;
  0x0000000000000000000000000000000000000000000000000000000000000000;
  0x0000000000000000000000000000000000000000000000000000000000000000;
  0x0000000000000000000000000000000000000000000000000000000000000000;
  0x0000000000000000000000000000000000000000000000000000000000000000;
  0x0000000000000000000000000000000000000000000000000000000000000000;
  0x0000000000000000000000000000000000000000000000000000000000000000;
  0x0000000000000000000000000000000000000000000000000000000000000000;
  0x0000000000000000000000000000000000000000000000000000000000000000;
  0x0000000000000000943800000000000000000000000000000000000000000000;
  0x0000000000000000000000000000000000000000000000000000000000000000;
  0x0000000000000000000000000000000000000000000000000000000000000000;
  0x0000000000000000000000000000000000000000000000000000000000000000;
  0x0000000000000000000000000000000000000000000000000000000000000000;
  0x0000000000000000000000000000000000000000000000000000000000000000;
  0x0000000000000000000000000000000000000000000000000000000000000000;
  0x00000000000000000000000000000028943effec00000000944a000000000000;
  0x945c000000000000000000000000000000000000000000000000000000000000;
  0x000000000000ffe2944400000000ffe294440000945c0000000000000000ffec;
  0x944a000000000000000000000000000000000000945c00000000ffec94500000;
  0x0000fff694560000000000000000000000000000945c00000000000000000000;
  0x0000000000000000000000000000000000000000000000000000000000000000;
  0x0000000000000000000000000000000000000000000000000000000000000000;
  0x0000000000000000000000000000000000000000000000000000000000000000;
  0x0000000000000000000000000000000000000000000000000000000000000000;
  0x0000000000000000000000000000000000000000000000000000000000000000;
  0x00000000000000000000000000000000000000000000000000000002001a0001;
  0x00010000000300050001000700100004001b003e000e0040004000320042005c;
  0x0033005e005f004e006100630050006500650053006900690054006b006c0055;
  0x006e006e0057007700770058007b007b0059007f00ca005a00d500dc00a600df;
  0x00e000ae00e200e300b000ee00ee00b200f000f000b300f400f500b400f900fb;
  0x00b600fd010700b90112011b00c40126012c00ce012e013600d5000100010136;
  0x005900000024004e003f00000038002400070008001d000b0015000900150058;
  0x0000000000000000000000000000000000000000001f001f0022000f000b0052;
  0x00390002002c001700180003002d002e00040004002f003000190004001a0001;
  0x003100010032001b0033000a0035003600370014001c0007003b00080000005e;
  0x000000050000001e00100006004300480013000c004a004b0010001300130000;
  0x00000051005500280020000d000e000e0060000e002a000700000008000b0000;
  0x0041003d005a00000061000000000000003e00000011000f0000001d00000000;
  0x0000000000000000000000000023000000000000001200000000000000530002;
  0x0002000200020002000200030017000300030003000300040004000400040018;
  0x001a0001000100010001000100220001000a000a000a000a0014003400490005;
  0x000500050005000500050006001e0006000600060006000c000c002100210040;
  0x001300000000000000000000000b0000000d000d000d000d000e0000000e000c;
  0x0019001000030006001b00280014001c002a005f000000000000000000000000;
  0x00000000000000000009000900260027002500260027002500000000003c0015;
  0x0000001100120000000000000000000000000000000000000000000b00000023;
  0x000000000000000f000f000000000000000c001000200000002b004f005c0016;
  0x00460044002900560016004c002b000000000000000000000000000000000000;
  0x000000620050005d005b00470045002900570016004d00000000000000000000;
  0x0000000000000000000000420054001100120011001200090000000900090007;
  0x00080007000800070008003a000100010136004d003a002200440039000e0031;
  0x002200070008001b0006001500090015004c0000000000000000000000000000;
  0x000000000000001c001c00060014001e00480032000500010003000100010001;
  0x000300010001002c000100010012001200030001000300010019002d000a002e;
  0x002f00300013001a0007003400080000005600000004000b000200020002000d;
  0x0040000b00160041000b000b000c000c000200470002000c0026004f000f0028;
  0x002800580018002900070000000800060000003b0036004e0000000000000000;
  0x000000370020001000060000001b000000380000001700170000000000000021;
  0x0000001700200011000e000e000e0049000500050005000500050005002b0003;
  0x000100010001000100010001000100010001001200030003000300030003001e;
  0x0003000a000a000a000a00130001000d00040004000400040004000400040002;
  0x000200020002000200160016001f001f0002000c000200020002000200020006;
  0x0002000f000f000f000f001800500018000c0001000b00030002001900260013;
  0x001a002900570000000000000000000000000000000000000000000900090024;
  0x002500230024002500230000000000350015000e001000110000000000000053;
  0x0000000000000000000000000006000000210000000000000014001400000000;
  0x0000000d000d000d0000002a004500540051003e003c0027004a001d0042002a;
  0x00000000000000000000000000000000000000000059004600550052003f003d;
  0x0027004b001d0043000000000000000000000000000000000000000000000000;
  0x0010001100100011000900000009000900070008000700080007000800330002;
  0x005880000002006e80000002005080000000000d80000002006d80000002003a;
  0x8000000200748000000200468000000200218000000200758000000200558000;
  0x0002002880000002000880000002003b80000000000080000002001980000002;
  0x008c80000002004080000002005d800000020051800000020087800000020086;
  0x8000000300008000000100138000000200798000000200668000000200168000;
  0x0002008d80000002008b80000000000c80000002008f80000000000980000002;
  0x005f80000002005a80000002000f80000001000a80000002002d800000020034;
  0x80000002003380000002000680000001001980000002004a8000000200358000;
  0x0002008080000002008180000002008e80000002000c80000001001880000002;
  0x005980000002000380000001000580000002007d800000010011800000020070;
  0x80000002005680000002005480000002003780000002004380000002001b8000;
  0x0002008480000002001c80000002008380000002006180000002002680000002;
  0x000480000002001080000002005c800000000007800000020057800000020036;
  0x80000002000b80000002000e8000000200028000000200228000000000028000;
  0x0002000d80000002001180000002002480000002001880000000000b80000002;
  0x002980000002001f80000002006480000002003e80000002006880000002004e;
  0x80000002004f80000002007c8000000200148000000200888000000200178000;
  0x0002004280000002003880000002001380000002007f80000000000480000001;
  0x001780000002004880000002004580000002006980000002007e80000002006b;
  0x80000001000f80000002006380000002001a80000002004c8000000200898000;
  0x0002008580000000000680000002007780000002007680000002002a80000000;
  0x000380000002001e80000002004480000002003c800000020032800000020031;
  0x80000000000a80000002002f8000000200788000000200478000000100038000;
  0x0001000680000002007b80000002003980000002002e80000002006780000001;
  0x001080000001000e80000001000c80000001001480000002002c800000020020;
  0x8000000100158000000200658000000200628000000200718000000200418000;
  0x0002003d80000001000780000001000980000002002780000002003f80000002;
  0x002b80000000000880000000000580000001000280000001001280000002007a;
  0x80000002006080000001000b80000001000d8000].

(** GSUB of tests/fixtures/AdobeVFPrototype.ttf: 1160 bytes at 136752. *)
Definition adobe_vf_gsub : list byte := runs (N.to_nat 1160) [
  0x00010001000e003800a60000044c000244464c54000e6c61746e000e00040000;
  0x0000ffff0009000000010002000300040005000700080006000961616c740038;
  0x6361736500406c69676100466c6e756d004c6f6e756d0052706e756d00587276;
  0x726e005e746e756d00627a65726f006800000002000000010000000100060000;
  0x0001000800000001000500000001000300000001000400000000000000010002;
  0x000000010007000a0016006c01b201f8023e028402c40342035c038c00010000;
  0x0001000800020028001101300131012c013601320133013401350126012a012d;
  0x012b0127012e012f01280129000100110009000a000e0021003c003e005c005e;
  0x0061006b006d007b007f00d500d600e200e30003000000010008000101280028;
  0x00560060006800700078008000880090009800a000a800b600bc00c200c800ce;
  0x00d400da00e000e600b000b600bc00c200c800ce00d400da00e000e600ec00f2;
  0x00f800fe0104010a01100116011c0122000400fc00fd0108011c000300fe0109;
  0x011d000300ff010a011e00030100010b011f00030101010c012000030102010d;
  0x012100030103010e012200030104010f01230003010501100124000301060111;
  0x0125000300110107011200020011011200020012011300020013011400020014;
  0x011500020015011600020016011700020017011800020018011900020019011a;
  0x0002001a011b000200fd0108000200fe0109000200ff010a00020100010b0002;
  0x0101010c00020102010d00020103010e00020104010f00020105011000020106;
  0x0111000200030011001a000000fd0106000a0108011b00140001000000010008;
  0x0002002e0014001100120013001400150016001700180019001a01080109010a;
  0x010b010c010d010e010f011001110002000200fd010600000112011b000a0001;
  0x0000000100080002002e001401080109010a010b010c010d010e010f01100111;
  0x01120113011401150116011701180119011a011b000200020011001a000000fd;
  0x0106000a00010000000100080002002e001400fd00fe00ff0100010101020103;
  0x01040105010601120113011401150116011701180119011a011b000200020011;
  0x001a000001080111000a00010000000100080002002e00140011001200130014;
  0x00150016001700180019001a00fd00fe00ff0100010101020103010401050106;
  0x000200010108011b000000010000000100080002003c001b01300131012c011c;
  0x011d011e011f012001210122012301240125013601320133013401350126012a;
  0x012d012b0127012e012f012801290001001b0009000a000e0011001200130014;
  0x00150016001700180019001a0021003c003e005c005e0061006b006d007b007f;
  0x00d500d600e200e300010000000100080002000a000200fc0107000100020011;
  0x00fd0004000000010008000100220001000800030008000e001400f90002004a;
  0x00fa0002004d00fb0002005500010001004700010000000100080002000a0002;
  0x0138013700010002000500620001000000000001000000100000002a00020000;
  0x000a000000120001000100004000000100002bbf400000010000000100060000;
  0x000c000000010009].

(** fvar of tests/fixtures/AdobeVFPrototype.ttf: 168 bytes at 41556. *)
Definition adobe_vf_fvar : list byte := runs (N.to_nat 168) [
  0x0001000000100002000200140008000e7767687400c800000185582103840000;
  0x00000103434e5452000000000000000000640000000001040105000000c80000;
  0x00000000010601070000012c0000000000000108010900000190000000000000;
  0x010a010b00000258000000000000010c010d000002bc000000000000010e010f;
  0x0000038400000000000001100111000003840000003200000112011300000384;
  0x0000006400000114].

(** GDEF of tests/fixtures/AdobeVFPrototype.ttf: 489 bytes at 183148. *)
Definition adobe_vf_gdef : list byte := runs (N.to_nat 489) [
  0x0001000300000000000000000000000000120001000000180004000000580000;
  0x006f00000092000001bc00020005c000c0000000000000000000000040004000;
  0x000000000000000000000000000040004000c000c00000000000400040000000;
  0x40004000000040004000000f000000010000d8dde2ecf1f6fb050a0f141e2832;
  0x3c001b0000000100018da1b5babfc4ced8dde2e7ecf1f6fb050a0f14191e282d;
  0x323c466400900000000200000001baa1ba14ba32c4c4c4d8c4e2c40ac428ceba;
  0xcec4ced8cee2ceecce28ce32d892d89cd8bfd8ced8d8d8e2d8e7d8ecd8f6d81e;
  0xe2c4e2cee2d8e2e2e2e7e2ece2f1e2f6e20ae214e228e232e246ecbaecc4ecce;
  0xecd8ecddece2ecececf1ecf6ecfbec05ec0aec14ec1eec28ec32ec50f1d3f1f6;
  0xf1fbf6c4f6cef6d8f6e2f6e7f6ecf6f1f6f6f6fbf605f60af614f619f61ef628;
  0xf632f63cf650fbecfbf6fb05fb0afb14fb19fb2dfb3705e705ec05f105f605fb;
  0x0505050a0ac90ace0ad30ad80ae20aec0af10af60afb0a050a0a0a0f0a140a1e;
  0x0a280a320a3c0a460a500ffb0f050f0a0f0f14c414ce14d814e214ec14f6140a;
  0x140f1414141e14281432143c14461eec1ef61efb1e0a1e141e1e1e281e321e3c;
  0x28e2280a2814281e282828323214000500000003000000010003e2f61ee2001e;
  0xec0014001e1e141e0a].

(** GPOS of tests/fixtures/CrimsonText-Regular.ttf: 10388 bytes at 94952. *)
Definition crimson_text_gpos : list byte := runs (N.to_nat 10388) [
  0x00010000000a00280052000244464c54000e6c61746e000e000400000000ffff;
  0x000300000001000200036b65726e00146d61726b001a6d6b6d6b002200000001;
  0x0000000000020001000200000002000300040005000c09f4228624e225500002;
  0x00080002000a019a000100500004000000230142014201420142014201420142;
  0x014201420142014201420142009600d801420142014201420142014201420148;
  0x014801480148014801480148014801480148014e015801660002000b00010003;
  0x00000009000a000300100012000500140018000800640064000d00830083000e;
  0x00a300a9000f00d800e10016013b013b002001e601e600210242024200220010;
  0x0001ffec0002ffec0003ffec0009ffec000affec0010ffec0011ffec0012ffec;
  0x0014ffec0015ffec0016ffec0017ffec0018ffec0019ffec001affec001bffec;
  0x001a0001ffe20002ffe20003ffe20009ffe2000affe20010ffe20011ffe20012;
  0xffe20014ffe20015ffe20016ffe20017ffe20018ffe20019ffe2001affe2001b;
  0xffe200d8ffce00d9ffce00daffce00dbffce00dcffce00ddffce00deffce00df;
  0xffce00e0ffce00e1ffce00010083ffe200010083ffce00020253004602550046;
  0x0003022effc4022fffc40232ffc4000a00b5ffc400b6ffc400b7ffc400b8ffc4;
  0x00b9ffc400baffc400bbffc400bcffc400bdffc400f6ffc40002051800040000;
  0x05ee06dc0017001c000000000000000000000000000000000000000000000000;
  0x000000000000ffe2000000000000000000000000000000000000000000000000;
  0x0000000000000000ffdd00000000000000000000ffe20000000000000000ffe2;
  0x0000000000000000000000000000000000000000000000000000000000000000;
  0x00000000000000000000ffd8000000000000ffe2ffce00000000ffd800000000;
  0x000000000000000000000000000000000000ffce000000000000ffe200000000;
  0xffe2ffceffe20000000000000000ffe2ffec0000000000000000ffec00000000;
  0x00000000000000000000000000000000000000000000000000000000ffec0000;
  0x0000000000000000000000000000000000000000000000000000000000000000;
  0x000000000000000000000000000000000000ffe2000000000000000000000000;
  0x0000000000000000000000000000000000000000000000000000ffe2ffd80000;
  0x00000000ffce000000000000ffce00000000ffb0ffa6ffce0000ffb000000000;
  0x0000000000000000000000000000000000000000000000000000000000000000;
  0x00000000000000000000000000000000000000000000000000000000ffce0000;
  0x00000000000000000000ff92ffe20000ffb0ffba0000ffceff9cff88ffbaffe2;
  0xffce00000000ffceffb00000ffb0ffc4ffceffc40000ffce0000ffb000000000;
  0x00000000ffec000000000000000000000000ffe2000000000000ffc40000ffc4;
  0x0000000000000000000000000000000000000000000000000000ff9cffd80000;
  0xffbaffc40000ffc4ffb0ffb0ffb00000ffc400000000ffb0ffa60000ffb0ffb0;
  0xffb0ffba0000ffc40000ffb0000000000000ffb0ffce0000ffb0ffba0000ffc4;
  0xffb0ffb0ffba0000ffce00000000ffceffc40000ffceffc4ffceffce00000000;
  0x0000000000000000000000000000000000000000ffe2000000000000ffce0000;
  0x0000ffb0ffc4ffce0000ffba0000000000000000000000000000000000000000;
  0x0000000000000000000000000000000000000000000000000000ffce00000000;
  0x00000000000000000000000000000000000000000000000000000000ffd80000;
  0xffd800000000000000000000ffc400000000ffc40000ffba0000000000000000;
  0x0000000000000000000000000000000000000000000000000000000000000000;
  0x0000000000000000000000000000000000000000000000000000000000000000;
  0x00500000000000000000ffe20000000000000000000000000000ffce00000000;
  0x0000000000000000000000000000000000000000000000000000000000000000;
  0x0000000000000000000000000000000000000000000000000000ffce00000000;
  0x000000000000000000000000000000000000000000000000000000000000005a;
  0x0000000000000000000000000000000000000000000000000000000000000000;
  0x000000000000000000000000000000000000ffd8000000000000ffec00000000;
  0x0000000000000000000000000000000000000000000000000000000000000000;
  0x0000000000000000000000000000001e00000000000000000000000000000000;
  0x0000000000000000000000000000000000000000000000000000000000000000;
  0x0000000000000000000000000000000000000000000000000000000000000000;
  0x0000000000000000000000000000000000000000ffc4ffce0000000000000014;
  0x0000000000000000000000000000000000000000000000000000000000000000;
  0x00000000000000140000000000000000000200230001000300000009000a0003;
  0x001000120005001400180008001c001f000d0027003000110045004c001b0066;
  0x00870023008d008f00450097009c0048009e00a1004e00a300a9005200b500ca;
  0x005900d200e1006f00e500eb007f00ed00ee008600f600f9008800ff0100008c;
  0x01060108008e010a0116009101200120009e0127012b009f012d012d00a40132;
  0x013500a50137013c00a90143014b00af0168016800b80170018200b90188018a;
  0x00cc0192019e00cf01b301b300dc01d801e200dd01f801fb00e80200020000ec;
  0x020f020f00ed000200270001000300060009000a000600100012000600140018;
  0x0006001c001f00110027003000020045004600130047004c000d0066006a000e;
  0x006b00740009007500820005008300870002008d008f00020097009c0002009e;
  0x00a1001000a300a9000c00b500bd000b00be00ca000300d200d7000300d800e1;
  0x000800e500eb000a00ed00ee000a00f600f6000100f700f9000400ff01000004;
  0x010601080004010a010f0004012001200012013b013c000f0143014b00010168;
  0x016800120170017d0001019e019e001601b301b3001401d801e2000701f901f9;
  0x000f01fb01fb0001020002000001020f020f00150002003d0001000300090009;
  0x000a00090010001200090014001b00090020002600020047004c000200830087;
  0x0002008d008f00020097009d000200a200a2000200b500bd000e00be00ca0006;
  0x00d200d7000600d800e1000d00e500eb001100ed00ee001100f600f6000e00f7;
  0x00f9000800ff01000008010601080008010a011200080113011600030117012b;
  0x0001012d012d00010132013500010137013a0001013b013c0007013d01420013;
  0x0143014b0003014c0151000b01560156000b0159015c000b015d015f00170160;
  0x016300030164016400190165016f00030170017d0005017e018200010188018a;
  0x0001019201990001019a019d0014019e019e0001019f01a6000501a701af0010;
  0x01b001b0000701b101ba000c01bb01c8000401d001d7000401d801e2000a01e3;
  0x01e5001501e601ea000f01ec01ec000f01ee01f0000f01f101f7001201f80204;
  0x0007020c020c001a02100210001b022e022f0016023202320016025202520018;
  0x02540254001800040000000100080001000c00340003009e015a00020006028e;
  0x029a0000029c02a1000d02a302a8001302b602be001902c102c3002202c502cc;
  0x0025000200110001002700000029002b0027002d002f002a00310041002d0043;
  0x004d003e004f0073004900750081006e00830090007b0097009c0089009e00a0;
  0x008f00a200b5009200b700cb00a600d200d300bb00d500f500bd00f7014300de;
  0x0145016e012b017001f70155002d00001bee00001bca00001bd000001bd60000;
  0x1bdc00001c0000001c0000001c0000001be200001be800001bee00001bf40000;
  0x1bfa00001c0000001c0000001c0600001c0c00001c1200001c1800001c1e0000;
  0x1c2400011a7c00011a8200011a88000200b600001c2a00001c3000001c5a0000;
  0x1c3c00001c5400001c3600001c3c00011a8e00001c4200001c4800001c4e0000;
  0x1c5400001c5a00001c6000001c6600001c6c00001c7200001c7800001c7e0000;
  0x1c84000100ea001001dd0b960ba20ba80b300ba20ba80b3c0ba20ba80b360ba2;
  0x0ba80b3c0b780ba80b420ba20ba80b480ba20ba80b480ba20ba80b4e0ba20ba8;
  0x0b5a0ba20ba80b540ba20ba80b5a0b780ba80b600ba20ba80b660ba20ba80b6c;
  0x0ba20ba80b720ba20ba80b960b780ba80b7e0ba20ba80b840ba20ba80b8a0ba2;
  0x0ba80b960ba20ba80b900ba20ba80b960ba20ba80b9c0ba20ba80bae0bc00000;
  0x0bb40bc000000bba0bc000000bcc0bde00000bc60bde00000bcc0bd200000bd8;
  0x0bde00000bea0c0800000bf00c0800000be40c0800000bea0bf600000bf00bf6;
  0x00000bfc0c0800000c020c0800000dfa0c2600000de20c2600000dfa0c0e0000;
  0x0c140c2600000df40c2600000dfa0c1a00000c200c2600000c6e0c980c9e0c2c;
  0x0c980c9e0c320c980c9e0c380c980c9e0c4a0c980c9e0c3e0c980c9e0c440c98;
  0x0c9e0c4a0c740c9e0c500c980c9e0c560c980c9e0c5c0c980c9e0c620c980c9e;
  0x0c680c980c9e0c6e0c740c9e0c7a0c980c9e0c800c980c9e0c860c980c9e0c8c;
  0x0c980c9e0c920c980c9e0ca40cb000000caa0cb000000cc20cda00000cb60cda;
  0x00000cbc0cda00000cc20cc800000cce0cda00000cd40cda00000dfa0cf80000;
  0x0ce00cf800000dfa0ce600000cec0cf800000cf20cf800000df40cf800000dfa;
  0x0cfe00000d460d520d58000000000d580d040d520d580d0a0d520d580d100d52;
  0x0d580d160d520d580d1c0d520d580d220d520d580d280d520d580d460d2e0d58;
  0x0d340d520d580d3a0d520d580d400d520d580d460d520d580d4c0d520d580d5e;
  0x12e000000d6412e000000d760d8800000d6a0d8800000d760d7000000d760d7c;
  0x00000d820d8800000da00db800000d8e0db800000da00db800000d940db80000;
  0x0da00d9a00000da00db800000da00dac00000da60dac00000db20db800000dd0;
  0x0dca00000dbe0dca00000dc40dca00000dd00dd600000dfa0e1200000ddc0e12;
  0x00000de20e1200000de80e1200000dfa0dee00000df40e1200000dfa0e000000;
  0x0e060e1200000e0c0e1200000e4e0e900e960e180e900e960e1e0e900e960e24;
  0x0e900e960e300e900e960e2a0e900e960e300e540e960e360e900e960e3c0e90;
  0x0e960e420e900e960e480e900e960e4e0e540e960e5a0e900e960e600e900e96;
  0x0e660e900e960e6c0e900e960e720e7e00000e780e7e00000e840e900e960e8a;
  0x0e900e960e9c149600000ea2149600000ea8149600000eae0eb400000ed20ee4;
  0x00000eba0ee400000ec00ee400000ed20ec600000ecc0ee400000ed20ed80000;
  0x0ede0ee400000f1a0f1400000eea0f1400000ef00f1400000ef60f1400000efc;
  0x0f1400000f1a0f0200000f080f1400000f1a0f0e00000f200f1400000f1a0f26;
  0x00000f200f2600000f4a0f5c00000f2c0f5c00000f4a0f3200000f380f5c0000;
  0x0f4a0f3e00000f440f5c00000f4a0f5000000f560f5c00000f9e0fd40fda0f62;
  0x0fd40fda0f680fd40fda0f6e0fd40fda0f740fd40fda0f7a0fd40fda0f800fd4;
  0x0fda0f860fd40fda0f8c0fd40fda0f920fd40fda0f980fd40fda0f9e0fa40fda;
  0x0faa0fd40fda0fb00fd40fda0fb60fd40fda0fbc0fd40fda0fc20fd40fda0fc8;
  0x0fd40fda0fce0fd40fda0fe00ff200000fe00fe600000fec0ff2000010101022;
  0x00000ff8102200000ffe10220000100410220000100a10220000101010160000;
  0x101c102200001028103a0000102e103a00001034103a00001058107c00001040;
  0x107c00001046107c0000104c107c00001052107c00001058105e00001064107c;
  0x0000106a107c00001070107c00001076107c0000109a10ac0000108210ac0000;
  0x108810ac0000108e10ac0000109410ac0000109a10a0000010a610ac00001100;
  0x1148114e10b21148114e10be1148114e10b81148114e10be1106114e10c41148;
  0x114e10ca1148114e10d01148114e10d61148114e10e21148114e10dc1148114e;
  0x10e21106114e10e81148114e10ee1148114e10f41148114e10fa1148114e1100;
  0x1106114e110c1148114e11121148114e11181148114e111e1124112a11301148;
  0x114e11361148114e113c1148114e11421148114e115411660000115a11660000;
  0x1160116600001178117e0000116c117e00001178117200001178117e000016a6;
  0x119c0000118a119c00001184119c000016a611900000118a119000001196119c;
  0x000016b2119c000011c011c6000011a214f6000011c011c6000011c011a80000;
  0x11ae11c6000011c011c6000011b411c6000011c011ba000011c011c60000120e;
  0x124a125011cc124a125011d2124a125011d8124a125011ea124a125011de124a;
  0x125011e4124a125011ea1214125011f0124a125011f6124a125011fc124a1250;
  0x1202124a12501208124a1250120e12141250121a124a12501220124a12501226;
  0x124a1250122c12321238123e124a12501244124a1250125612620000125c1262;
  0x0000127412860000126812860000126e12860000127412860000127a12860000;
  0x12801286000012b012b60000128c12b6000012b012920000129812b60000129e;
  0x12b6000012a412b6000012b012aa000012b012b6000012f819c0132212bc132e;
  0x133412c2132e133412c8132e133412ce132e133412d4132e133412da12e012e6;
  0x12ec132e133412f2132e133412f819e2132212fe132e13341304132e1334130a;
  0x131013221316132e1334131c19c013221328132e1334133a13401346134c135e;
  0x00001352135e00001358135e00001382138800001364138800001382136a0000;
  0x1382137000001376137c000013821388000013b813be0000138e13be000013b8;
  0x13be0000139413be000013b8139a000013a013a6000013b813b2000013ac13b2;
  0x000013b813be000013d613d0000013c413d0000013ca13d0000013d613dc0000;
  0x14061412000013e21412000013e81412000013ee14120000140613f4000013fa;
  0x14120000140614000000140614120000140c141200001418141e0000145a14c6;
  0x14cc142414c614cc142a14c614cc143014c614cc143c14c614cc143614c614cc;
  0x143c146014cc144214c614cc144814c614cc144e14c614cc145414c614cc145a;
  0x146014cc146614c614cc146c14c614cc1478149600001472149600001478147e;
  0x0000148414960000148a14960000149014960000149c14c614cc14a214c614cc;
  0x14a80000000014ae0000000014b414c614cc14ba14c614cc14c014c614cc14d2;
  0x14d8000014de14f0000014e414f0000014ea14f0000016d614f6000014fc1502;
  0x0000152c15320000150815320000150e15320000152c15140000151a15320000;
  0x152c15260000152015260000152c15320000155c15560000153815560000153e;
  0x15560000155c15440000154a15560000155c15500000156215560000155c1568;
  0x0000156215680000156e15740000159e192a0000159e192a0000159e192a0000;
  0x159e157a00001580192a0000159e15860000158c192a00001592192a0000159e;
  0x15980000159e192a0000162e164c165215a4164c165215aa164c165215b0164c;
  0x165215b6164c165215bc164c165215c2164c165215c8164c165215ce164c1652;
  0x15d4164c165215da164c16521628164c1652162e15e0165215e6164c165215ec;
  0x164c165215f81616000015f21616000015f815fe0000160416160000160a1616;
  0x0000161016160000161c164c16521622164c16521628164c1652162e164c1652;
  0x1634164c1652163a164c16521640164c16521646164c16521658166a00001658;
  0x165e00001664166a0000168816a00000167016a00000167616a00000167c16a0;
  0x0000168216a000001688168e0000169416a00000169a16a0000016a616b80000;
  0x16ac16b8000016b216b8000016d61700000016be1700000016c41700000016ca;
  0x1700000016d01700000016d616dc000016e21700000016e81700000016ee1700;
  0x000016f41700000016fa170000001724172a00001706172a0000170c172a0000;
  0x1712172a00001718172a00001724171e00001724172a0000000101a703390001;
  0x0165037b0001016303560001015d037c0001015d032a00010168031f00010191;
  0x037e0001016202fa0001017f036000010189011800010160038b0001015f031c;
  0x00010156ff7d000101ab0306000100fd00e200010166030f0001019303010001;
  0x015f02900001015d032100010156000000010268000a000102730290000102bb;
  0x03390001027a030f000101eb000000010128036500010128029000010128ff7d;
  0x00010126ffb50001012800000001018b031f000101820290000101ca03390001;
  0x012000000001018502fa00010182036500010148000000010155ff1d00010166;
  0xff6c00010155ff7d00010158ffb5000101550000000101660339000101220356;
  0x00010127031f00010150037e00010124ff6c0001012102fa0001013e03600001;
  0x014801180001011f038b0001011e031c0001011e03650001011e02900001011e;
  0xff7d0001016a0306000100bc00e200010125030f0001011c032100010119ff96;
  0x0001011e000000010202000a0001011402900001011403650001011400000001;
  0x017e03560001017d02fa0001017a029000010166ff1d0001017a036500010181;
  0x030f00010166000000010162ffbe0001004800030001016c02fa00010169031c;
  0x00010162000000010162ff7d000100ee0339000100aa0356000100af031f0001;
  0x00a902fa000100a6031c000100ee03c5000100a603650001009fff7d000100f2;
  0x03060001004400e2000100ad030f000100a60290000100a403210001009f0000;
  0x00010126000a000100b50290000100b802fa000101a303390001015bff1d0001;
  0x015b02900001015bff7d00010162ffb50001015b0000000100f603390001012a;
  0xff6c0001011cff1d000100ae0290000100b5030f0001011cff7d0001012fffb4;
  0x0001011c00000001020f0339000101c70365000101c70000000101c702900001;
  0x01c7ff7d000101b1033900010172031f00010169ff6c00010169ff1d00010169;
  0x036500010169029000010169ff7d00010186ffb4000101670321000101690000;
  0x000101ba03390001017603560001017b031f000101a4037e0001017502fa0001;
  0x019203600001019c011800010173038b00010172031c0001017202900001016c;
  0xff7d000101be03060001011000e2000101a3038d00010179030f0001015c0290;
  0x000101a403390001015c00000001017003210001017003ad0001016c00000001;
  0x028f000a0001011102900001015903390001011103650001016a02900001016a;
  0x000000010171033900010132031f0001014aff1d000101290365000101290290;
  0x0001014aff7d00010130ffb50001014a000000010148033900010148040e0001;
  0x0109031f0001010903f4000100f5ff680001010302fa000100f6ff1d000100f6;
  0x0000000101000290000101000365000100f6ff7d00010158031f0001014eff6f;
  0x00010152ff760001014fff240001014f03650001014f02900001014fff840001;
  0x0157ffb50001014f0007000101bb03390001017703560001017c031f00010176;
  0x02fa00010171ff6c00010173031c000101bb03c50001016affc50001017303bd;
  0x000101bf039200010173029000010168ff7d000101bf03060001011100e20001;
  0x01a4038d0001017a030f00010193037f0001017103210001016effa400010168;
  0x000000010287000a00010163029000010163ff7d000101610321000101630000;
  0x0001027d03390001023802fa00010235031c0001023503650001023502900001;
  0x021aff7d0001028103060001021a000000010165029000010165031c00010165;
  0x03650001015800000001019c03390001015702fa00010154031c000101540365;
  0x00010154029000010145ff7d000101a00306000100f200e20001015b030f0001;
  0x0152032100010145000000010174033900010135031f0001012f02fa0001012c;
  0x03650001012c02900001012cff7d00010133ffb80001012c000000010083021a;
  0x000100de02c6000100d4026a000100cd02c6000100ca025a000100d4025a0001;
  0x00d4024f0001010a02a5000100d40252000100e402a10001014b02d4000100dc;
  0x02d3000100d4023a000100d401ae000100d4ff7d000100d402af000100d6028f;
  0x000100d4022b000100df01ae000100df000000010188000a000100f4029d0001;
  0x00a30309000100fdffc4000100d40232000100d400000001017d000a00010152;
  0x01ae00010101021a00010152022b000101520000000100720358000100faff7d;
  0x000100720283000100fa0000000100ea024f00010099021a000100caff680001;
  0x00ea0252000100cb00000001010102cd000100f9ff1d00010107ff8c00010179;
  0x0358000100f9ff7d000101790283000100f9000000010097021a000100e8026a;
  0x000100e8024f0001011e02a5000100deff8c000100e80252000100f802a10001;
  0x016302c0000100e802dd000100e8023a000100e80283000100e801ae000100eb;
  0xff7d000100e802af000100ea028f000100e8022b000100d101ae000100de0000;
  0x00010176000a000100e80232000100ddff9c000100eb000000010183000a0001;
  0x00e60283000100e60358000100970000000100e3026a000100e30252000100e3;
  0x01ae000100e30283000100e3022b000100edff3800010109ffc90001007cff6e;
  0x0001007a02ed00010077030f00010077035800010109ff7d0001007702830001;
  0x010900000001008401ae00010033021a00010084026a00010084024f00010084;
  0x0252000100a1023a000100a1000000010112000a0001003302a6000100840283;
  0x0001009002530001008402af00010086028f00010193028300010172ff380001;
  0x0084022b00010087028300010101000a0001008402320001008d0000000100fe;
  0x000a000100af0283000100b8000000010129000a0001008e02830001008e01ae;
  0x0001008e02520001006fff38000100d2035a000100f8ff1d000100f8ff7d0001;
  0x012701ae0001012700000001008a02b1000100f80000000100c603760001007e;
  0xff8c0001007eff1d0001009202cd0001009200000001007e034a0001007eff7d;
  0x0001007e02cd0001007e00000001013f021a0001019002830001019000000001;
  0x019001ae00010190ff7d000100bf021a00010110024f00010113ff8c00010110;
  0xff1d00010110028300010110ff7d0001011001ae000101100232000101100000;
  0x0001010a01ae0001010a0000000100ae021a000100ff026a000100ff024f0001;
  0x013502a5000100ff02520001010f02a10001017002e5000100ff02d6000100ff;
  0x023a000100ff01ae000100ffff7d000100ff02af00010101028f000100c0021a;
  0x0001011101ae00010111ff7d0001011102af00010113028f0001011102320001;
  0x011100000001013002ab000100ff022b0001011401ae000100c3021a000100ff;
  0x0232000100ae029e000100ff02be000100ff0000000101cb000a0001018701ae;
  0x0001018700000001010001ae000100af021a0001010002830001010000000001;
  0x01010000000100f501ae000100f500000001006d021a000100be024f00010089;
  0xff1d000100be0283000100be022b00010089ff7d000100be01ae000100890000;
  0x00010063021a000100b4024f000100b3ff68000100b40252000100b4ff1d0001;
  0x00b40000000100b401ae000100b40283000100b4ff7d0001012102cd00010121;
  0x0000000100b9ff68000100b7ff96000100baff1d0001009d024e0001009d028d;
  0x000100baff7d0001009d01ae000100b2021a00010103026a00010103024f0001;
  0x010302520001010bff8c00010103023a000100b202a600010119ff9f00010103;
  0x02db00010103033b00010103ff7d0001010302af00010105028f000100c9021a;
  0x0001011a01ae0001011aff7d0001011a02af0001011c028f0001011a02320001;
  0x011a00000001013402ab00010103022b0001010302b70001010301ae00010123;
  0x029d000101030232000100b2029e0001011fffa3000101030000000101d1000a;
  0x000100f701ae000100f7ff7d000100f70232000100f700000001012b021a0001;
  0x017c02520001017c023a0001017c02830001017c01ae0001016fff7d0001017c;
  0x02af0001019c029d0001016f0000000100ea01ae000100ea023a000100ea0283;
  0x000100ea0000000100b0021a00010101025200010101023a0001010102830001;
  0x010101ae00010142ff5c0001010102af00010103028f00010101022b00010121;
  0x029d00010101023200010142ffdf0001007e021a000100cf024f000100cf0252;
  0x000100cf0283000100cfff7d000100cf01ae000100cf00000005000000010008;
  0x0001000c00340002004a00fc00020006028e029a0000029c02a1000d02a302a7;
  0x001302b602be001802c102c3002102c502cc00240001000900f601f801fa01fb;
  0x01fd01fe020002010202002c000003b00000038c00000392000003980000039e;
  0x000003c2000003c2000003c2000003a4000003aa000003b0000003b6000003bc;
  0x000003c2000003c2000003c8000003ce000003d4000003da000003e0000003e6;
  0x0001023e000102440001024a000003ec000003f20000041c000003fe00000416;
  0x000003f8000003fe00010250000004040000040a00000410000004160000041c;
  0x00000422000004280000042e000004340000043a000004400000044600090014;
  0x00360058008a00b000e20136011401360002000a00100016001c0001010d02cd;
  0x0001010d00000001032802cd0001032800000002000a00100016001c000100ca;
  0x02cd000100ca00000001025d02cd0001025d00000003000e0014001a00200026;
  0x002c000100b502cd000100b500000001021e02cd0001021e00000001038702cd;
  0x00010387000000030066006c000e0014001a00200001022f02cd0001022f0000;
  0x000103a302cd000103a300000003000e0014001a00200026002c0001007f02cd;
  0x0001007f00000001017c02cd0001017c00000001027902cd0001027900000003;
  0x000e0014001a00200026002c000100ba02cd000100ba00000001022d02cd0001;
  0x022d0000000103a002cd000103a000000002000a00100016001c0001007802cd;
  0x0001007800000001016702cd0001016700000002000a00100016001c000100d1;
  0x02cd000100d100000001027302cd000102730000000600100001000a00000001;
  0x000c000c0001001800420001000402a502a602a702bd00040000001200000018;
  0x0000001e00000024000100900000000100410000000100e10000000100280000;
  0x0004000a00100016001c00010090ff7d00010041ff1d000100e0ff6800010000;
  0x0000000600100001000a00010001000c003a0001006801ca00020007028e029a;
  0x0000029c02a1000d02a302a4001302b602bc001502be02be001c02c102c3001d;
  0x02c502cc002000020007028e029a0000029c02a1000d02a302a3001302b602bc;
  0x001402c102c1001b02c302c3001c02c502cc001d0028000000c6000000a20000;
  0x00a8000000ae000000b4000000d8000000d8000000d8000000ba000000c00000;
  0x00c6000000cc000000d2000000d8000000d8000000de000000e4000000ea0000;
  0x00f0000000f6000000fc000001020000010800000132000001140000012c0000;
  0x010e000001140000011a00000120000001260000012c00000132000001380000;
  0x013e000001440000014a00000150000001560000015c0001008501ae0001008b;
  0x01ae0001008101ae0001007f01ae000100a901ae0001007b01ae0001008301ae;
  0x0001006401ae0001009101ae0001007801ae0001007d01ae0001007601ae0001;
  0x00ad01ae000100c101ae0001005a01ae0001006001ae0001007402900001003f;
  0x02900001009102900001006202900001003c02900001005802900001008b0290;
  0x0001009702900001007b02900001008502900001008302900001007902900001;
  0x008e02900001007802900001008a02900001008402900025004c005200580058;
  0x005e0064006a00700076007c00820088008e0094009a00a000a600ac00b200b8;
  0x00be00c400ca00dc00d000d600dc00e200e800ee00f400fa01000106010c0112;
  0x01180001008d02c60001007e02c600010081025a000100b502a50001008802a1;
  0x0001007a03330001007802d6000100a9023a0001007b02830001008302af0001;
  0x0013021a000100c202ab00010078025200010078024f0001007d026a00010096;
  0x029d000100ad0232000100c1022b0001005c028f000100c00306000100870339;
  0x0001007e02fa00010095032100010098030f00010095032b0001fff600e20001;
  0x0097033100010084031f000100a50360000100b5037e0001007d03560001008c;
  0x037c0001007e037b00010088032a00010082032a].

(** CPAL of tests/fixtures/KalniaGlaze[wdth,wght].ttf: 108 bytes at 148600. *)
Definition kalnia_glaze_cpal : list byte := runs (N.to_nat 108) [
  0x00010009000200120000001c000000090000006400000000000000007a3566ff;
  0x1f173bffaf40b7ff6f30ffffff62a7ffc78b9afff229ffffb24dffffc78b9aff;
  0x7979ffffd8e7fdff7979ffffffa07affc2b5ffffd3d5eaffbfc4f9ffa6b6ffff;
  0xffcddcff0000000100000002].

(** GDEF of tests/fixtures/KalniaGlaze[wdth,wght].ttf: 1522 bytes at 148708. *)
Definition kalnia_glaze_gdef : list byte := runs (N.to_nat 1522) [
  0x000100030012000000b20000016e000001920002001a0002000c0001000f0020;
  0x0001002200250001002800390001003b00490001004e00560001005800640001;
  0x0066006a0001006c007f0001008200890001008b00930001009500980001009b;
  0x00a5000100a700af000100b100bf000100c400cc000100ce00da000100dc00e0;
  0x000100e200ea000100eb00f20002014601460001014801490001014b014b0001;
  0x01580159000101610161000101620171000300300016004c005c006c006c007c;
  0x008c009c00ac004c004c005c005c006c006c007c007c008c008c009c009c00ac;
  0x00ac0002000400eb00f200000326032b0008032e0333000e0336033700140001;
  0x0004000301e60006000500228000000100040003015600060004002880000001;
  0x0004000301eb0006000500238000000100040003013300060005000b80000001;
  0x0004000301a50006000600128000000100040003013400060005001680000001;
  0x00040003012a00060004000e8000000100020000000c0000001400010002016f;
  0x0170000200020162016600000168016e000500010000002400070000004c0000;
  0x0061000000df000001f000000215000002e9000003d600020003000000000000;
  0x000040004000000040004000000000000000000040004000000040004000000d;
  0x000000010001bac4ced8ecf60a0f141a1e2028003a00000002000100029cbaa6;
  0x92a69ca9b2b0b0b0e2b009b00ab01eb050bab0bac4bacebae2baf6ba1ec4b0c4;
  0xd8c4ecc4f6cececee2ce0ad8c4d8ced8d8d8ecd8f6d80ad814d828e2b0e2c4e2;
  0xcee2e2e2ece21eecb0ecd8ece2ecececf6ec0aec14f6cef60afc0400b000ce00;
  0xf60001000a001400280a0214e2140a1ee2005700000003000000010002923c6e;
  0x9cba009cd878b0b046b0b05ab0ce50baa6cec4a6f6c4c41ec4c43cc4e25ac4ec;
  0x14c4ec50c43c3ccebaecce3232ce5032d8ce3cd81e1ee2ce1ee2e21ee2e228e2;
  0xec0ae200f6e2001ee20acee20a00e214ececc414ecce14ecd814ece214ecec14;
  0xecec1eecf600ec00ecec0014ec0a92ec1414ec3c14f6ba0af6e2c4f6e2e2f6e2;
  0x0af6ece2f6ec00f6000bf6280afe04fcff00010100ff0ae2a60ae2ce0af6ec0a;
  0x00f60a0ad80a0af60f0ef214ecce1414ec1450ec1ee2ec1e14ec1e1ee21e3ce2;
  0x28f6d829110932f6ba3721553729613b234e3b23583b27573b2b534600924628;
  0x9c46294847304b4734474d264d64000064466366212c6625286e23356e6e6e7a;
  0x391400090001000200020001ff7488ff749c01ae0000e65000be6e00d26e00c8;
  0x7800e67800f0780032000100030000000100020089553b009c1e4700a0224400;
  0xa1f36000a3da7400a3567300a5ff4500a5034100adc65c00adcc6e00add06a00;
  0xade06000ade45c00b41c7c00b5587a00b81a3d00bb371d00bc161600bd586700;
  0xbd5c6300c1da4800c1f84800c2fd7100c2070100c2071500c4f74200c40b4c00;
  0xc9075600c90d6100c9115d00cc077100cd145e00cd175d00cd1f4f00d20e3300;
  0xd3254c00da291100db1f5100dc002d00dc042900dc466a00e2343f00ea0eed00;
  0xf10e2e01003c6e0118236f01322a19015e7e510188e23701902c5b002d000200;
  0x03000000020001ffc4014064ffec00fa1effec014a1effec012c28fff6ff6aba;
  0x0006008306000aff7eba004600b478008600a853009600a610009700a23b0099;
  0x009b4c00a3008c0d00a400ff1200a400fb1600a400862f00a800870800ab00ba;
  0x1900ab00b61d00ad00831500ae00942100ae00902500b000804d00b1008afe00;
  0xb400c41100be00c41400be00c01800bf00a14c00bf00ab6000e500e97200ef00;
  0xd00200f4008e2800fb0089c9011d0081260138008e3b013f008943014a009f69;
  0x015500f623015701233b0180008cf9019700a13c019d00b92401aa00ae3f01d4;
  0x00d55a01de00ce65001500030003000000010002fff6009601360000008c00dc;
  0x0000008c00e60000008c00f00000008c01040028008200d2003200aa00b40050;
  0x00ab016d005e008200b5005e008200bf0072008d00ab0073008d00aa008c00b4;
  0xfec0008c00b40082009400bb0129009600b4007800b400c8006400e6008c0092;
  0x0112008a0096017f00ae0160019b00c000f0].

(** fvar of tests/fixtures/KalniaGlaze[wdth,wght].ttf: 140 bytes at 170256. *)
Definition kalnia_glaze_fvar : list byte := runs (N.to_nat 140) [
  0x0001000000100002000200140007000c77676874006400000064000002bc0000;
  0x00000100776474680064000000640000007d0000000001010102000000640000;
  0x006400000103000000c800000064000001040000012c00000064000001050000;
  0x01900000006400000106000001f4000000640000010700000258000000640000;
  0x0108000002bc000000640000].

(** GSUB of tests/fixtures/LondrinaSolid-Regular.ttf: 10 bytes at 12236. *)
Definition londrina_solid_gsub : list byte := runs (N.to_nat 10) [
  0x00010000000000000000].

(** GDEF of tests/fixtures/OpenSans-Italic.ttf: 30 bytes at 206348. *)
Definition open_sans_gdef : list byte := runs (N.to_nat 30) [
  0x00010000000c00000016000000020001000003a900010004000000010000].

(** GSUB of tests/fixtures/OpenSans-Italic.ttf: 966 bytes at 206436. *)
Definition open_sans_gsub : list byte := runs (N.to_nat 966) [
  0x00010000000a006e01e400016c61746e0008001000024d4f4c200028524f4d20;
  0x00420000ffff000900030008000b0000000e001100140017001a0000ffff000a;
  0x000400060009000c0001000f001200150018001b0000ffff000a00050007000a;
  0x000d00020010001300160019001c001d6c69676100b06c69676100b66c696761;
  0x00bc6c6e756d00c26c6e756d00c86c6e756d00ce6c6f636c00d46c6f636c00da;
  0x6f6e756d00e06f6e756d00e86f6e756d00f0706e756d00f8706e756d00fe706e;
  0x756d010473616c74010a73616c74011273616c74011a73733031012273733031;
  0x012a73733031013273733032013a73733032014073733032014673733033014c;
  0x737330330152737330330158746e756d015e746e756d0166746e756d016e0000;
  0x0001000900000001000900000001000900000001000700000001000700000001;
  0x0007000000010008000000010008000000020002000300000002000200030000;
  0x0002000200030000000100040000000100040000000100040000000200000001;
  0x0000000200000001000000020000000100000002000000010000000200000001;
  0x0000000200000001000000010000000000010000000000010000000000010001;
  0x0000000100010000000100010000000200050006000000020005000600000002;
  0x00050006000a0016001e0026002e0036003e0046004e0056005e000100000001;
  0x0050000100000001007a00010000000100aa00010000000100c6000100000001;
  0x00ee00010000000100f400010000000101100001000000010116000100000001;
  0x013200040000000101480002001000050391039203930394039500020005004a;
  0x004a000000df00df000100e100e1000200e300e3000300e500e500040002002e;
  0x0014002c008e008f0090009100ea00ec00ee00f000f200f4015a0167017701a1;
  0x01a202c902d80345034700020001039603a900000002001a000a038303840385;
  0x0386038703880389038a038b038c000200010013001c00000002001a000a0383;
  0x03850386038703880389038a038b038c0384000200030013001300000015001c;
  0x000103820382000900020008000103820001000100140002001a000a00130014;
  0x00150016001700180019001a001b001c000200010383038c0000000200080001;
  0x00140001000103820002001a000a0013038200150016001700180019001a001b;
  0x001c000200010383038c00000002000e0004038f039001200121000200020124;
  0x012500000149014a000200010036000100080005000c0014001c00220028025e;
  0x00030049004f025d00030049004c038d0002004902350002004f02340002004c;
  0x000100010049].

(** fvar of tests/fixtures/Gingham.ttf: 164 bytes at 10456. *)
Definition gingham_fvar : list byte := runs (N.to_nat 164) [
  0x0001000000100002000200140009000c77676874012c0000012c000002bc0000;
  0x00000101776474680001000000010000009600000000010201030000012c0000;
  0x000100000104000001900000000100000105000002bc00000001000001060000;
  0x012c0000006400000100000001900000006400000107000002bc000000640000;
  0x01080000012c000000960000010900000190000000960000010a000002bc0000;
  0x00960000].

(** the table directory of tests/fixtures/OpenSans-Italic.ttf: 316 bytes at 0. *)
Definition open_sans_directory : list byte := runs (N.to_nat 316) [
  0x000100000013010000040030445349475a77fd4000032a2c0000157447444546;
  0x002603af0003260c0000001e47504f530b370f370003262c0000003847535542;
  0x0e2b3db700032664000003c64f532f32a14d963d000001b800000060636d6170;
  0x29ab2f68000010b40000041a637674200ec0171900001d90000000a06670676d;
  0x7e61b611000014d0000007b46761737000150023000325fc00000010676c7966;
  0x5058f2540000258800011e1e68656164f847f9630000013c0000003668686561;
  0x102010e00000017400000024686d7478d907cde30000021800000e9a6b65726e;
  0x542b097e000143a80001b6366c6f63614d8505a900001e30000007566d617870;
  0x054301a000000198000000206e616d65537422ce0002f9e0000005ee706f7374;
  0x0237ef6c0002ffd00000262b707265705481969300001c8400000109].

(** the table directory of tests/fixtures/SourceSerifPro-Regular.otf: 204 bytes at 0. *)
Definition source_serif_directory : list byte := runs (N.to_nat 204) [
  0x4f54544f000c008000030040424153458b1e94b100014b740000003a43464620;
  0xeaabfcd5000045440000936047504f534ed4d9ab0000ebfc00005f7847535542;
  0xd998ca390000e13000000aca4f532f325bfe73150000013000000060636d6170;
  0xc92c1c3d00003d040000081e6865616403538787000000cc0000003668686561;
  0x075904cc0000010400000024686d7478f5d440290000d8a40000088c6d617870;
  0x0223500000000128000000066e616d659293f22f0000019000003b74706f7374;
  0xffb800320000452400000020].
