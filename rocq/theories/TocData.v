(** The table of contents shipped with the dump writer, byte for byte:
    src/osm/apidb_dump/write/toc/toc.dat (150838 bytes; include_bytes! in write/toc.rs 6).
    Generated: 64 bytes per number, most significant byte first. *)
From Coq Require Import ZArith List.
Import ListNotations.
Open Scope Z_scope.
Definition toc_words_0 : list Z := [
0x5047444d50010e0004080300000000000012000000002f000000000f000000000d000000000b000000007a0000000000000000000d0000006f70656e73747265;
0x65746d6170001e00000031352e31202844656269616e2031352e312d312e706764673131302b3129001e00000031352e31202844656269616e2031352e312d31;
0x2e706764673131302b312900c801000000c910000000000000000001000000300001000000300008000000454e434f44494e470008000000454e434f44494e47;
0x0002000000001e00000053455420636c69656e745f656e636f64696e67203d202755544638273b0a010100000001010000000101000000010100000001010000;
0x000101000000000500000066616c73650101000000000000000000ca1000000000000000000100000030000100000030000a000000535444535452494e475300;
0x0a000000535444535452494e475300020000000028000000534554207374616e646172645f636f6e666f726d696e675f737472696e6773203d20276f6e273b0a;
0x010100000001010000000101000000010100000001010000000101000000000500000066616c73650101000000000000000000cb100000000000000000010000;
0x0030000100000030000a00000053454152434850415448000a000000534541524348504154480002000000003800000053454c4543542070675f636174616c6f;
0x672e7365745f636f6e66696728277365617263685f70617468272c2027272c2066616c7365293b0a010100000001010000000101000000010100000001010000;
0x000101000000000500000066616c73650101000000000000000000cc100000000000000000040000003132363200050000003136333834000d0000006f70656e;
0x7374726565746d61700008000000444154414241534500020000000078000000435245415445204441544142415345206f70656e7374726565746d6170205749;
0x54482054454d504c415445203d2074656d706c6174653020454e434f44494e47203d20275554463827204c4f43414c455f50524f5649444552203d206c696263;
0x204c4f43414c45203d2027656e5f55532e75746638273b0a001d00000044524f50204441544142415345206f70656e7374726565746d61703b0a010100000001;
0x01000000010100000001010000000008000000706f737467726573000500000066616c73650101000000000000000000cd100000000000000000010000003000;
0x010000003000160000004441544142415345206f70656e7374726565746d6170000300000041434c000100000000360000004752414e5420414c4c204f4e2044;
0x41544142415345206f70656e7374726565746d617020544f206f70656e7374726565746d61703b0a010100000001010000000101000000010100000001010000;
0x000008000000706f737467726573000500000066616c736500040000003433303001010000000000000000000200000000000000000004000000333037390005;
0x0000003136333930000a00000062747265655f676973740009000000455854454e53494f4e0002000000003e00000043524541544520455854454e53494f4e20;
0x4946204e4f54204558495354532062747265655f67697374205749544820534348454d41207075626c69633b0a001b00000044524f5020455854454e53494f4e;
0x2062747265655f676973743b0a01010000000101000000010100000001010000000101000000000500000066616c73650101000000000000000000ce10000000;
0x000000000001000000300001000000300014000000455854454e53494f4e2062747265655f676973740007000000434f4d4d454e540001000000005400000043;
0x4f4d4d454e54204f4e20455854454e53494f4e2062747265655f676973742049532027737570706f727420666f7220696e646578696e6720636f6d6d6f6e2064;
0x617461747970657320696e2047695354273b0a010100000001010000000101000000010100000001010000000000000000000500000066616c73650001000000;
0x32010100000000000000000068040000000000000000040000003132343700050000003137303431000b000000666f726d61745f656e756d0004000000545950;
0x45000200000000530000004352454154452054595045207075626c69632e666f726d61745f656e756d20415320454e554d20280a202020202768746d6c272c0a;
0x20202020276d61726b646f776e272c0a202020202774657874270a293b0a001e00000044524f502054595045207075626c69632e666f726d61745f656e756d3b;
0x0a010100000000060000007075626c6963010100000001010000000008000000706f737467726573000500000066616c736501010000000000000000006b0400;
0x0000000000000004000000313234370005000000313730343800130000006770785f7669736962696c6974795f656e756d000400000054595045000200000000;
0x750000004352454154452054595045207075626c69632e6770785f7669736962696c6974795f656e756d20415320454e554d20280a2020202027707269766174;
0x65272c0a20202020277075626c6963272c0a2020202027747261636b61626c65272c0a20202020276964656e7469666961626c65270a293b0a00260000004452;
0x4f502054595045207075626c69632e6770785f7669736962696c6974795f656e756d3b0a010100000000060000007075626c6963010100000001010000000008;
0x000000706f737467726573000500000066616c736501010000000000000000006e04000000000000000004000000313234370005000000313730353800110000;
0x0069737375655f7374617475735f656e756d0004000000545950450002000000005c0000004352454154452054595045207075626c69632e69737375655f7374;
0x617475735f656e756d20415320454e554d20280a20202020276f70656e272c0a202020202769676e6f726564272c0a20202020277265736f6c766564270a293b;
0x0a002400000044524f502054595045207075626c69632e69737375655f7374617475735f656e756d3b0a010100000000060000007075626c6963010100000001;
0x010000000008000000706f737467726573000500000066616c736501010000000000000000007104000000000000000004000000313234370005000000313730;
0x3636000f0000006e6f74655f6576656e745f656e756d0004000000545950450002000000007a0000004352454154452054595045207075626c69632e6e6f7465;
0x5f6576656e745f656e756d20415320454e554d20280a20202020276f70656e6564272c0a2020202027636c6f736564272c0a202020202772656f70656e656427;
0x2c0a2020202027636f6d6d656e746564272c0a202020202768696464656e270a293b0a002200000044524f502054595045207075626c69632e6e6f74655f6576;
0x656e745f656e756d3b0a010100000000060000007075626c6963010100000001010000000008000000706f737467726573000500000066616c73650101000000;
0x0000000000007404000000000000000004000000313234370005000000313730373800100000006e6f74655f7374617475735f656e756d000400000054595045;
0x000200000000580000004352454154452054595045207075626c69632e6e6f74655f7374617475735f656e756d20415320454e554d20280a20202020276f7065;
0x6e272c0a2020202027636c6f736564272c0a202020202768696464656e270a293b0a002300000044524f502054595045207075626c69632e6e6f74655f737461;
0x7475735f656e756d3b0a010100000000060000007075626c6963010100000001010000000008000000706f737467726573000500000066616c73650101000000;
0x0000000000007704000000000000000004000000313234370005000000313730383600080000006e77725f656e756d0004000000545950450002000000004f00;
0x00004352454154452054595045207075626c69632e6e77725f656e756d20415320454e554d20280a20202020274e6f6465272c0a2020202027576179272c0a20;
0x2020202752656c6174696f6e270a293b0a001b00000044524f502054595045207075626c69632e6e77725f656e756d3b0a010100000000060000007075626c69;
0x63010100000001010000000008000000706f737467726573000500000066616c736501010000000000000000007a040000000000000000040000003132343700;
0x050000003137303934000e000000757365725f726f6c655f656e756d000400000054595045000200000000540000004352454154452054595045207075626c69;
0x632e757365725f726f6c655f656e756d20415320454e554d20280a202020202761646d696e6973747261746f72272c0a20202020276d6f64657261746f72270a;
0x293b0a002100000044524f502054595045207075626c69632e757365725f726f6c655f656e756d3b0a010100000000060000007075626c696301010000000101;
0x0000000008000000706f737467726573000500000066616c736501010000000000000000007d0400000000000000000400000031323437000500000031373130;
0x300010000000757365725f7374617475735f656e756d0004000000545950450002000000007e0000004352454154452054595045207075626c69632e75736572;
0x5f7374617475735f656e756d20415320454e554d20280a202020202770656e64696e67272c0a2020202027616374697665272c0a2020202027636f6e6669726d;
0x6564272c0a202020202773757370656e646564272c0a202020202764656c65746564270a293b0a002300000044524f502054595045207075626c69632e757365;
0x725f7374617475735f656e756d3b0a010100000000060000007075626c6963010100000001010000000008000000706f737467726573000500000066616c7365;
0x0101000000000000000000d7000000000000000000040000003132353900050000003137313131000400000061636c7300050000005441424c45000200000000;
0xba000000435245415445205441424c45207075626c69632e61636c7320280a20202020696420626967696e74204e4f54204e554c4c2c0a202020206164647265;
0x737320696e65742c0a202020206b206368617261637465722076617279696e67204e4f54204e554c4c2c0a202020207620636861726163746572207661727969;
0x6e672c0a20202020646f6d61696e206368617261637465722076617279696e672c0a202020206d78206368617261637465722076617279696e670a293b0a0018;
0x00000044524f50205441424c45207075626c69632e61636c733b0a010100000000060000007075626c696300000000000004000000686561700008000000706f;
0x737467726573000500000066616c73650101000000000000000000d8000000000000000000040000003132353900050000003137313136000b00000061636c73;
0x5f69645f736571000800000053455155454e4345000200000000740000004352454154452053455155454e4345207075626c69632e61636c735f69645f736571;
0x0a202020205354415254205749544820310a20202020494e4352454d454e5420425920310a202020204e4f204d494e56414c55450a202020204e4f204d415856;
0x414c55450a20202020434143484520313b0a002200000044524f502053455155454e4345207075626c69632e61636c735f69645f7365713b0a01010000000006;
0x0000007075626c6963010100000001010000000008000000706f737467726573000500000066616c736500030000003231350101000000000000000000cf1000;
0x000000000000000100000030000100000030000b00000061636c735f69645f736571001100000053455155454e4345204f574e45442042590002000000003b00;
0x0000414c5445522053455155454e4345207075626c69632e61636c735f69645f736571204f574e4544204259207075626c69632e61636c732e69643b0a010100;
0x0000010100000000060000007075626c6963010100000001010000000008000000706f737467726573000500000066616c736500030000003231360101000000;
0x000000000000d9000000000000000000040000003132353900050000003137313137001a0000006163746976655f73746f726167655f6174746163686d656e74;
0x7300050000005441424c450002000000000d010000435245415445205441424c45207075626c69632e6163746976655f73746f726167655f6174746163686d65;
0x6e747320280a20202020696420626967696e74204e4f54204e554c4c2c0a202020206e616d65206368617261637465722076617279696e67204e4f54204e554c;
0x4c2c0a202020207265636f72645f74797065206368617261637465722076617279696e67204e4f54204e554c4c2c0a202020207265636f72645f696420626967;
0x696e74204e4f54204e554c4c2c0a20202020626c6f625f696420626967696e74204e4f54204e554c4c2c0a20202020637265617465645f61742074696d657374;
0x616d7020776974686f75742074696d65207a6f6e65204e4f54204e554c4c0a293b0a002e00000044524f50205441424c45207075626c69632e6163746976655f;
0x73746f726167655f6174746163686d656e74733b0a010100000000060000007075626c696300000000000004000000686561700008000000706f737467726573;
0x000500000066616c73650101000000000000000000da00000000000000000004000000313235390005000000313731323200210000006163746976655f73746f;
0x726167655f6174746163686d656e74735f69645f736571000800000053455155454e43450002000000008a0000004352454154452053455155454e4345207075;
0x626c69632e6163746976655f73746f726167655f6174746163686d656e74735f69645f7365710a202020205354415254205749544820310a20202020494e4352;
0x454d454e5420425920310a202020204e4f204d494e56414c55450a202020204e4f204d415856414c55450a20202020434143484520313b0a003800000044524f;
0x502053455155454e4345207075626c69632e6163746976655f73746f726167655f6174746163686d656e74735f69645f7365713b0a0101000000000600000070;
0x75626c6963010100000001010000000008000000706f737467726573000500000066616c736500030000003231370101000000000000000000d0100000000000;
0x000000010000003000010000003000210000006163746976655f73746f726167655f6174746163686d656e74735f69645f736571001100000053455155454e43;
0x45204f574e454420425900020000000067000000414c5445522053455155454e4345207075626c69632e6163746976655f73746f726167655f6174746163686d;
0x656e74735f69645f736571204f574e4544204259207075626c69632e6163746976655f73746f726167655f6174746163686d656e74732e69643b0a0101000000;
0x010100000000060000007075626c6963010100000001010000000008000000706f737467726573000500000066616c7365000300000032313801010000000000;
0x00000000db00000000000000000004000000313235390005000000313731323300140000006163746976655f73746f726167655f626c6f627300050000005441;
0x424c450002000000006a010000435245415445205441424c45207075626c69632e6163746976655f73746f726167655f626c6f627320280a2020202069642062;
0x6967696e74204e4f54204e554c4c2c0a202020206b6579206368617261637465722076617279696e67204e4f54204e554c4c2c0a2020202066696c656e616d65;
0x206368617261637465722076617279696e67204e4f54204e554c4c2c0a20202020636f6e74656e745f74797065206368617261637465722076617279696e672c;
0x0a202020206d6574616461746120746578742c0a20202020627974655f73697a6520626967696e74204e4f54204e554c4c2c0a20202020636865636b73756d20;
0x6368617261637465722076617279696e672c0a20202020637265617465645f61742074696d657374616d7020776974686f75742074696d65207a6f6e65204e4f;
0x54204e554c4c2c0a20202020736572766963655f6e616d65206368617261637465722076617279696e67204e4f54204e554c4c0a293b0a002800000044524f50;
0x205441424c45207075626c69632e6163746976655f73746f726167655f626c6f62733b0a010100000000060000007075626c6963000000000000040000006865;
0x61700008000000706f737467726573000500000066616c73650101000000000000000000dc000000000000000000040000003132353900050000003137313238;
0x001b0000006163746976655f73746f726167655f626c6f62735f69645f736571000800000053455155454e434500020000000084000000435245415445205345;
0x5155454e4345207075626c69632e6163746976655f73746f726167655f626c6f62735f69645f7365710a202020205354415254205749544820310a2020202049;
0x4e4352454d454e5420425920310a202020204e4f204d494e56414c55450a202020204e4f204d415856414c55450a20202020434143484520313b0a0032000000;
0x44524f502053455155454e4345207075626c69632e6163746976655f73746f726167655f626c6f62735f69645f7365713b0a010100000000060000007075626c;
0x6963010100000001010000000008000000706f737467726573000500000066616c736500030000003231390101000000000000000000d1100000000000000000;
0x0100000030000100000030001b0000006163746976655f73746f726167655f626c6f62735f69645f736571001100000053455155454e4345204f574e45442042;
0x590002000000005b000000414c5445522053455155454e4345207075626c69632e6163746976655f73746f726167655f626c6f62735f69645f736571204f574e;
0x4544204259207075626c69632e6163746976655f73746f726167655f626c6f62732e69643b0a0101000000010100000000060000007075626c69630101000000;
0x01010000000008000000706f737467726573000500000066616c736500030000003232300101000000000000000000dd00000000000000000004000000313235;
0x3900050000003137313239001e0000006163746976655f73746f726167655f76617269616e745f7265636f72647300050000005441424c450002000000009d00;
0x0000435245415445205441424c45207075626c69632e6163746976655f73746f726167655f76617269616e745f7265636f72647320280a202020206964206269;
0x67696e74204e4f54204e554c4c2c0a20202020626c6f625f696420626967696e74204e4f54204e554c4c2c0a20202020766172696174696f6e5f646967657374;
0x206368617261637465722076617279696e67204e4f54204e554c4c0a293b0a003200000044524f50205441424c45207075626c69632e6163746976655f73746f;
0x726167655f76617269616e745f7265636f7264733b0a010100000000060000007075626c696300000000000004000000686561700008000000706f7374677265;
0x73000500000066616c73650101000000000000000000de00000000000000000004000000313235390005000000313731333400250000006163746976655f7374;
0x6f726167655f76617269616e745f7265636f7264735f69645f736571000800000053455155454e43450002000000008e0000004352454154452053455155454e;
0x4345207075626c69632e6163746976655f73746f726167655f76617269616e745f7265636f7264735f69645f7365710a20202020535441525420574954482031;
0x0a20202020494e4352454d454e5420425920310a202020204e4f204d494e56414c55450a202020204e4f204d415856414c55450a20202020434143484520313b;
0x0a003c00000044524f502053455155454e4345207075626c69632e6163746976655f73746f726167655f76617269616e745f7265636f7264735f69645f736571;
0x3b0a010100000000060000007075626c6963010100000001010000000008000000706f737467726573000500000066616c736500030000003232310101000000;
0x000000000000d2100000000000000000010000003000010000003000250000006163746976655f73746f726167655f76617269616e745f7265636f7264735f69;
0x645f736571001100000053455155454e4345204f574e45442042590002000000006f000000414c5445522053455155454e4345207075626c69632e6163746976;
0x655f73746f726167655f76617269616e745f7265636f7264735f69645f736571204f574e4544204259207075626c69632e6163746976655f73746f726167655f;
0x76617269616e745f7265636f7264732e69643b0a0101000000010100000000060000007075626c6963010100000001010000000008000000706f737467726573;
0x000500000066616c736500030000003232320101000000000000000000df00000000000000000004000000313235390005000000313731333500140000006172;
0x5f696e7465726e616c5f6d6574616461746100050000005441424c45000200000000de000000435245415445205441424c45207075626c69632e61725f696e74;
0x65726e616c5f6d6574616461746120280a202020206b6579206368617261637465722076617279696e67204e4f54204e554c4c2c0a2020202076616c75652063;
0x68617261637465722076617279696e672c0a20202020637265617465645f61742074696d657374616d7028362920776974686f75742074696d65207a6f6e6520;
0x4e4f54204e554c4c2c0a20202020757064617465645f61742074696d657374616d7028362920776974686f75742074696d65207a6f6e65204e4f54204e554c4c;
0x0a293b0a002800000044524f50205441424c45207075626c69632e61725f696e7465726e616c5f6d657461646174613b0a010100000000060000007075626c69;
0x6300000000000004000000686561700008000000706f737467726573000500000066616c73650101000000000000000000e00000000000000000000400000031;
0x3235390005000000313731343000120000006368616e67657365745f636f6d6d656e747300050000005441424c45000200000000f00000004352454154452054;
0x41424c45207075626c69632e6368616e67657365745f636f6d6d656e747320280a20202020696420696e7465676572204e4f54204e554c4c2c0a202020206368;
0x616e67657365745f696420626967696e74204e4f54204e554c4c2c0a20202020617574686f725f696420626967696e74204e4f54204e554c4c2c0a2020202062;
0x6f64792074657874204e4f54204e554c4c2c0a20202020637265617465645f61742074696d657374616d7020776974686f75742074696d65207a6f6e65204e4f;
0x54204e554c4c2c0a2020202076697369626c6520626f6f6c65616e204e4f54204e554c4c0a293b0a002600000044524f50205441424c45207075626c69632e63;
0x68616e67657365745f636f6d6d656e74733b0a010100000000060000007075626c696300000000000004000000686561700008000000706f7374677265730005;
0x00000066616c73650101000000000000000000e100000000000000000004000000313235390005000000313731343500190000006368616e67657365745f636f;
0x6d6d656e74735f69645f736571000800000053455155454e4345000200000000910000004352454154452053455155454e4345207075626c69632e6368616e67;
0x657365745f636f6d6d656e74735f69645f7365710a20202020415320696e74656765720a202020205354415254205749544820310a20202020494e4352454d45;
0x4e5420425920310a202020204e4f204d494e56414c55450a202020204e4f204d415856414c55450a20202020434143484520313b0a003000000044524f502053;
0x455155454e4345207075626c69632e6368616e67657365745f636f6d6d656e74735f69645f7365713b0a010100000000060000007075626c6963010100000001;
0x010000000008000000706f737467726573000500000066616c736500030000003232340101000000000000000000d31000000000000000000100000030000100;
0x00003000190000006368616e67657365745f636f6d6d656e74735f69645f736571001100000053455155454e4345204f574e4544204259000200000000570000;
0x00414c5445522053455155454e4345207075626c69632e6368616e67657365745f636f6d6d656e74735f69645f736571204f574e4544204259207075626c6963;
0x2e6368616e67657365745f636f6d6d656e74732e69643b0a0101000000010100000000060000007075626c6963010100000001010000000008000000706f7374;
0x67726573000500000066616c736500030000003232350101000000000000000000e2000000000000000000040000003132353900050000003137313436000e00;
0x00006368616e67657365745f7461677300050000005441424c45000200000000c9000000435245415445205441424c45207075626c69632e6368616e67657365;
0x745f7461677320280a202020206368616e67657365745f696420626967696e74204e4f54204e554c4c2c0a202020206b20636861726163746572207661727969;
0x6e672044454641554c542027273a3a6368617261637465722076617279696e67204e4f54204e554c4c2c0a202020207620636861726163746572207661727969;
0x6e672044454641554c542027273a3a6368617261637465722076617279696e67204e4f54204e554c4c0a293b0a002200000044524f50205441424c4520707562;
0x6c69632e6368616e67657365745f746167733b0a010100000000060000007075626c696300000000000004000000686561700008000000706f73746772657300;
0x0500000066616c73650101000000000000000000e3000000000000000000040000003132353900050000003137313533000a0000006368616e67657365747300;
0x050000005441424c4500020000000041010000435245415445205441424c45207075626c69632e6368616e67657365747320280a20202020696420626967696e;
0x74204e4f54204e554c4c2c0a20202020757365725f696420626967696e74204e4f54204e554c4c2c0a20202020637265617465645f61742074696d657374616d;
0x7020776974686f75742074696d65207a6f6e65204e4f54204e554c4c2c0a202020206d696e5f6c617420696e74656765722c0a202020206d61785f6c61742069;
0x6e74656765722c0a202020206d696e5f6c6f6e20696e74656765722c0a202020206d61785f6c6f6e20696e74656765722c0a20202020636c6f7365645f617420;
0x74696d657374616d7020776974686f75742074696d65207a6f6e65204e4f54204e554c4c2c0a202020206e756d5f6368616e67657320696e7465676572204445;
0x4641554c542030204e4f54204e554c4c0a293b0a001e00000044524f50205441424c45207075626c69632e6368616e6765736574733b0a010100000000060000;
0x007075626c696300000000000004000000686561700008000000706f737467726573000500000066616c73650101000000000000000000e40000000000000000;
0x0004000000313235390005000000313731353700110000006368616e6765736574735f69645f736571000800000053455155454e43450002000000007a000000;
0x4352454154452053455155454e4345207075626c69632e6368616e6765736574735f69645f7365710a202020205354415254205749544820310a20202020494e;
0x4352454d454e5420425920310a202020204e4f204d494e56414c55450a202020204e4f204d415856414c55450a20202020434143484520313b0a002800000044;
0x524f502053455155454e4345207075626c69632e6368616e6765736574735f69645f7365713b0a010100000000060000007075626c6963010100000001010000;
0x000008000000706f737467726573000500000066616c736500030000003232370101000000000000000000d41000000000000000000100000030000100000030;
0x00110000006368616e6765736574735f69645f736571001100000053455155454e4345204f574e454420425900020000000047000000414c5445522053455155;
0x454e4345207075626c69632e6368616e6765736574735f69645f736571204f574e4544204259207075626c69632e6368616e6765736574732e69643b0a010100;
0x0000010100000000060000007075626c6963010100000001010000000008000000706f737467726573000500000066616c736500030000003232380101000000;
0x000000000000e500000000000000000004000000313235390005000000313731353800160000006368616e6765736574735f7375627363726962657273000500;
0x00005441424c4500020000000074000000435245415445205441424c45207075626c69632e6368616e6765736574735f737562736372696265727320280a2020;
0x2020737562736372696265725f696420626967696e74204e4f54204e554c4c2c0a202020206368616e67657365745f696420626967696e74204e4f54204e554c;
0x4c0a293b0a002a00000044524f50205441424c45207075626c69632e6368616e6765736574735f73756273637269626572733b0a010100000000060000007075;
0x626c696300000000000004000000686561700008000000706f737467726573000500000066616c73650101000000000000000000e60000000000000000000400;
0x000031323539000500000031373136310013000000636c69656e745f6170706c69636174696f6e7300050000005441424c45000200000000e302000043524541;
0x5445205441424c45207075626c69632e636c69656e745f6170706c69636174696f6e7320280a20202020696420696e7465676572204e4f54204e554c4c2c0a20;
0x2020206e616d65206368617261637465722076617279696e672c0a2020202075726c206368617261637465722076617279696e672c0a20202020737570706f72;
0x745f75726c206368617261637465722076617279696e672c0a2020202063616c6c6261636b5f75726c206368617261637465722076617279696e672c0a202020;
0x206b6579206368617261637465722076617279696e67283530292c0a20202020736563726574206368617261637465722076617279696e67283530292c0a2020;
0x2020757365725f696420696e74656765722c0a20202020637265617465645f61742074696d657374616d7020776974686f75742074696d65207a6f6e652c0a20;
0x202020757064617465645f61742074696d657374616d7020776974686f75742074696d65207a6f6e652c0a20202020616c6c6f775f726561645f707265667320;
0x626f6f6c65616e2044454641554c542066616c7365204e4f54204e554c4c2c0a20202020616c6c6f775f77726974655f707265667320626f6f6c65616e204445;
0x4641554c542066616c7365204e4f54204e554c4c2c0a20202020616c6c6f775f77726974655f646961727920626f6f6c65616e2044454641554c542066616c73;
0x65204e4f54204e554c4c2c0a20202020616c6c6f775f77726974655f61706920626f6f6c65616e2044454641554c542066616c7365204e4f54204e554c4c2c0a;
0x20202020616c6c6f775f726561645f67707820626f6f6c65616e2044454641554c542066616c7365204e4f54204e554c4c2c0a20202020616c6c6f775f777269;
0x74655f67707820626f6f6c65616e2044454641554c542066616c7365204e4f54204e554c4c2c0a20202020616c6c6f775f77726974655f6e6f74657320626f6f;
0x6c65616e2044454641554c542066616c7365204e4f54204e554c4c0a293b0a002700000044524f50205441424c45207075626c69632e636c69656e745f617070;
0x6c69636174696f6e733b0a010100000000060000007075626c696300000000000004000000686561700008000000706f737467726573000500000066616c7365;
0x0101000000000000000000e7000000000000000000040000003132353900050000003137313733001a000000636c69656e745f6170706c69636174696f6e735f;
0x69645f736571000800000053455155454e4345000200000000920000004352454154452053455155454e4345207075626c69632e636c69656e745f6170706c69;
0x636174696f6e735f69645f7365710a20202020415320696e74656765720a202020205354415254205749544820310a20202020494e4352454d454e5420425920;
0x310a202020204e4f204d494e56414c55450a202020204e4f204d415856414c55450a20202020434143484520313b0a003100000044524f502053455155454e43;
0x45207075626c69632e636c69656e745f6170706c69636174696f6e735f69645f7365713b0a010100000000060000007075626c69630101000000010100000000;
0x08000000706f737467726573000500000066616c736500030000003233300101000000000000000000d51000000000000000000100000030000100000030001a;
0x000000636c69656e745f6170706c69636174696f6e735f69645f736571001100000053455155454e4345204f574e454420425900020000000059000000414c54;
0x45522053455155454e4345207075626c69632e636c69656e745f6170706c69636174696f6e735f69645f736571204f574e4544204259207075626c69632e636c;
0x69656e745f6170706c69636174696f6e732e69643b0a0101000000010100000000060000007075626c6963010100000001010000000008000000706f73746772;
0x6573000500000066616c736500030000003233310101000000000000000000e80000000000000000000400000031323539000500000031373137340011000000;
0x63757272656e745f6e6f64655f7461677300050000005441424c45000200000000c7000000435245415445205441424c45207075626c69632e63757272656e74;
0x5f6e6f64655f7461677320280a202020206e6f64655f696420626967696e74204e4f54204e554c4c2c0a202020206b206368617261637465722076617279696e;
0x672044454641554c542027273a3a6368617261637465722076617279696e67204e4f54204e554c4c2c0a2020202076206368617261637465722076617279696e;
0x672044454641554c542027273a3a6368617261637465722076617279696e67204e4f54204e554c4c0a293b0a002500000044524f50205441424c45207075626c;
0x69632e63757272656e745f6e6f64655f746167733b0a010100000000060000007075626c696300000000000004000000686561700008000000706f7374677265;
0x73000500000066616c73650101000000000000000000e9000000000000000000040000003132353900050000003137313831000d00000063757272656e745f6e;
0x6f64657300050000005441424c450002000000002a010000435245415445205441424c45207075626c69632e63757272656e745f6e6f64657320280a20202020;
0x696420626967696e74204e4f54204e554c4c2c0a202020206c6174697475646520696e7465676572204e4f54204e554c4c2c0a202020206c6f6e676974756465].
Definition toc_words_1 : list Z := [
0x20696e7465676572204e4f54204e554c4c2c0a202020206368616e67657365745f696420626967696e74204e4f54204e554c4c2c0a2020202076697369626c65;
0x20626f6f6c65616e204e4f54204e554c4c2c0a202020202274696d657374616d70222074696d657374616d7020776974686f75742074696d65207a6f6e65204e;
0x4f54204e554c4c2c0a2020202074696c6520626967696e74204e4f54204e554c4c2c0a2020202076657273696f6e20626967696e74204e4f54204e554c4c0a29;
0x3b0a002100000044524f50205441424c45207075626c69632e63757272656e745f6e6f6465733b0a010100000000060000007075626c69630000000000000400;
0x0000686561700008000000706f737467726573000500000066616c73650101000000000000000000ea0000000000000000000400000031323539000500000031;
0x37313834001400000063757272656e745f6e6f6465735f69645f736571000800000053455155454e43450002000000007d000000435245415445205345515545;
0x4e4345207075626c69632e63757272656e745f6e6f6465735f69645f7365710a202020205354415254205749544820310a20202020494e4352454d454e542042;
0x5920310a202020204e4f204d494e56414c55450a202020204e4f204d415856414c55450a20202020434143484520313b0a002b00000044524f50205345515545;
0x4e4345207075626c69632e63757272656e745f6e6f6465735f69645f7365713b0a010100000000060000007075626c6963010100000001010000000008000000;
0x706f737467726573000500000066616c736500030000003233330101000000000000000000d61000000000000000000100000030000100000030001400000063;
0x757272656e745f6e6f6465735f69645f736571001100000053455155454e4345204f574e45442042590002000000004d000000414c5445522053455155454e43;
0x45207075626c69632e63757272656e745f6e6f6465735f69645f736571204f574e4544204259207075626c69632e63757272656e745f6e6f6465732e69643b0a;
0x0101000000010100000000060000007075626c6963010100000001010000000008000000706f737467726573000500000066616c736500030000003233340101;
0x000000000000000000eb000000000000000000040000003132353900050000003137313835001800000063757272656e745f72656c6174696f6e5f6d656d6265;
0x727300050000005441424c45000200000000f3000000435245415445205441424c45207075626c69632e63757272656e745f72656c6174696f6e5f6d656d6265;
0x727320280a2020202072656c6174696f6e5f696420626967696e74204e4f54204e554c4c2c0a202020206d656d6265725f74797065207075626c69632e6e7772;
0x5f656e756d204e4f54204e554c4c2c0a202020206d656d6265725f696420626967696e74204e4f54204e554c4c2c0a202020206d656d6265725f726f6c652063;
0x68617261637465722076617279696e67204e4f54204e554c4c2c0a2020202073657175656e63655f696420696e74656765722044454641554c542030204e4f54;
0x204e554c4c0a293b0a002c00000044524f50205441424c45207075626c69632e63757272656e745f72656c6174696f6e5f6d656d626572733b0a010100000000;
0x060000007075626c696300000000000004000000686561700008000000706f737467726573000500000066616c73650004000000313134330101000000000000;
0x000000ec000000000000000000040000003132353900050000003137313931001500000063757272656e745f72656c6174696f6e5f7461677300050000005441;
0x424c45000200000000cf000000435245415445205441424c45207075626c69632e63757272656e745f72656c6174696f6e5f7461677320280a2020202072656c;
0x6174696f6e5f696420626967696e74204e4f54204e554c4c2c0a202020206b206368617261637465722076617279696e672044454641554c542027273a3a6368;
0x617261637465722076617279696e67204e4f54204e554c4c2c0a2020202076206368617261637465722076617279696e672044454641554c542027273a3a6368;
0x617261637465722076617279696e67204e4f54204e554c4c0a293b0a002900000044524f50205441424c45207075626c69632e63757272656e745f72656c6174;
0x696f6e5f746167733b0a010100000000060000007075626c696300000000000004000000686561700008000000706f737467726573000500000066616c736501;
0x01000000000000000000ed000000000000000000040000003132353900050000003137313938001100000063757272656e745f72656c6174696f6e7300050000;
0x005441424c45000200000000d5000000435245415445205441424c45207075626c69632e63757272656e745f72656c6174696f6e7320280a2020202069642062;
0x6967696e74204e4f54204e554c4c2c0a202020206368616e67657365745f696420626967696e74204e4f54204e554c4c2c0a202020202274696d657374616d70;
0x222074696d657374616d7020776974686f75742074696d65207a6f6e65204e4f54204e554c4c2c0a2020202076697369626c6520626f6f6c65616e204e4f5420;
0x4e554c4c2c0a2020202076657273696f6e20626967696e74204e4f54204e554c4c0a293b0a002500000044524f50205441424c45207075626c69632e63757272;
0x656e745f72656c6174696f6e733b0a010100000000060000007075626c696300000000000004000000686561700008000000706f737467726573000500000066;
0x616c73650101000000000000000000ee000000000000000000040000003132353900050000003137323031001800000063757272656e745f72656c6174696f6e;
0x735f69645f736571000800000053455155454e4345000200000000810000004352454154452053455155454e4345207075626c69632e63757272656e745f7265;
0x6c6174696f6e735f69645f7365710a202020205354415254205749544820310a20202020494e4352454d454e5420425920310a202020204e4f204d494e56414c;
0x55450a202020204e4f204d415856414c55450a20202020434143484520313b0a002f00000044524f502053455155454e4345207075626c69632e63757272656e;
0x745f72656c6174696f6e735f69645f7365713b0a010100000000060000007075626c6963010100000001010000000008000000706f7374677265730005000000;
0x66616c736500030000003233370101000000000000000000d71000000000000000000100000030000100000030001800000063757272656e745f72656c617469;
0x6f6e735f69645f736571001100000053455155454e4345204f574e454420425900020000000055000000414c5445522053455155454e4345207075626c69632e;
0x63757272656e745f72656c6174696f6e735f69645f736571204f574e4544204259207075626c69632e63757272656e745f72656c6174696f6e732e69643b0a01;
0x01000000010100000000060000007075626c6963010100000001010000000008000000706f737467726573000500000066616c73650003000000323338010100;
0x0000000000000000ef000000000000000000040000003132353900050000003137323032001100000063757272656e745f7761795f6e6f646573000500000054;
0x41424c4500020000000084000000435245415445205441424c45207075626c69632e63757272656e745f7761795f6e6f64657320280a202020207761795f6964;
0x20626967696e74204e4f54204e554c4c2c0a202020206e6f64655f696420626967696e74204e4f54204e554c4c2c0a2020202073657175656e63655f69642062;
0x6967696e74204e4f54204e554c4c0a293b0a002500000044524f50205441424c45207075626c69632e63757272656e745f7761795f6e6f6465733b0a01010000;
0x0000060000007075626c696300000000000004000000686561700008000000706f737467726573000500000066616c73650101000000000000000000f0000000;
0x000000000000040000003132353900050000003137323035001000000063757272656e745f7761795f7461677300050000005441424c45000200000000c50000;
0x00435245415445205441424c45207075626c69632e63757272656e745f7761795f7461677320280a202020207761795f696420626967696e74204e4f54204e55;
0x4c4c2c0a202020206b206368617261637465722076617279696e672044454641554c542027273a3a6368617261637465722076617279696e67204e4f54204e55;
0x4c4c2c0a2020202076206368617261637465722076617279696e672044454641554c542027273a3a6368617261637465722076617279696e67204e4f54204e55;
0x4c4c0a293b0a002400000044524f50205441424c45207075626c69632e63757272656e745f7761795f746167733b0a010100000000060000007075626c696300;
0x000000000004000000686561700008000000706f737467726573000500000066616c73650101000000000000000000f100000000000000000004000000313235;
0x3900050000003137323132000c00000063757272656e745f7761797300050000005441424c45000200000000d0000000435245415445205441424c4520707562;
0x6c69632e63757272656e745f7761797320280a20202020696420626967696e74204e4f54204e554c4c2c0a202020206368616e67657365745f69642062696769;
0x6e74204e4f54204e554c4c2c0a202020202274696d657374616d70222074696d657374616d7020776974686f75742074696d65207a6f6e65204e4f54204e554c;
0x4c2c0a2020202076697369626c6520626f6f6c65616e204e4f54204e554c4c2c0a2020202076657273696f6e20626967696e74204e4f54204e554c4c0a293b0a;
0x002000000044524f50205441424c45207075626c69632e63757272656e745f776179733b0a010100000000060000007075626c69630000000000000400000068;
0x6561700008000000706f737467726573000500000066616c73650101000000000000000000f20000000000000000000400000031323539000500000031373231;
0x35001300000063757272656e745f776179735f69645f736571000800000053455155454e43450002000000007c0000004352454154452053455155454e434520;
0x7075626c69632e63757272656e745f776179735f69645f7365710a202020205354415254205749544820310a20202020494e4352454d454e5420425920310a20;
0x2020204e4f204d494e56414c55450a202020204e4f204d415856414c55450a20202020434143484520313b0a002a00000044524f502053455155454e43452070;
0x75626c69632e63757272656e745f776179735f69645f7365713b0a010100000000060000007075626c6963010100000001010000000008000000706f73746772;
0x6573000500000066616c736500030000003234310101000000000000000000d81000000000000000000100000030000100000030001300000063757272656e74;
0x5f776179735f69645f736571001100000053455155454e4345204f574e45442042590002000000004b000000414c5445522053455155454e4345207075626c69;
0x632e63757272656e745f776179735f69645f736571204f574e4544204259207075626c69632e63757272656e745f776179732e69643b0a010100000001010000;
0x0000060000007075626c6963010100000001010000000008000000706f737467726573000500000066616c736500030000003234320101000000000000000000;
0xf3000000000000000000040000003132353900050000003137323136000c00000064656c617965645f6a6f627300050000005441424c45000200000000d30100;
0x00435245415445205441424c45207075626c69632e64656c617965645f6a6f627320280a20202020696420626967696e74204e4f54204e554c4c2c0a20202020;
0x7072696f7269747920696e74656765722044454641554c542030204e4f54204e554c4c2c0a20202020617474656d70747320696e74656765722044454641554c;
0x542030204e4f54204e554c4c2c0a2020202068616e646c65722074657874204e4f54204e554c4c2c0a202020206c6173745f6572726f7220746578742c0a2020;
0x202072756e5f61742074696d657374616d7020776974686f75742074696d65207a6f6e652c0a202020206c6f636b65645f61742074696d657374616d70207769;
0x74686f75742074696d65207a6f6e652c0a202020206661696c65645f61742074696d657374616d7020776974686f75742074696d65207a6f6e652c0a20202020;
0x6c6f636b65645f6279206368617261637465722076617279696e672c0a202020207175657565206368617261637465722076617279696e672c0a202020206372;
0x65617465645f61742074696d657374616d7020776974686f75742074696d65207a6f6e652c0a20202020757064617465645f61742074696d657374616d702077;
0x6974686f75742074696d65207a6f6e650a293b0a002000000044524f50205441424c45207075626c69632e64656c617965645f6a6f62733b0a01010000000006;
0x0000007075626c696300000000000004000000686561700008000000706f737467726573000500000066616c73650101000000000000000000f4000000000000;
0x000000040000003132353900050000003137323233001300000064656c617965645f6a6f62735f69645f736571000800000053455155454e4345000200000000;
0x7c0000004352454154452053455155454e4345207075626c69632e64656c617965645f6a6f62735f69645f7365710a202020205354415254205749544820310a;
0x20202020494e4352454d454e5420425920310a202020204e4f204d494e56414c55450a202020204e4f204d415856414c55450a20202020434143484520313b0a;
0x002a00000044524f502053455155454e4345207075626c69632e64656c617965645f6a6f62735f69645f7365713b0a010100000000060000007075626c696301;
0x0100000001010000000008000000706f737467726573000500000066616c736500030000003234330101000000000000000000d9100000000000000000010000;
0x0030000100000030001300000064656c617965645f6a6f62735f69645f736571001100000053455155454e4345204f574e45442042590002000000004b000000;
0x414c5445522053455155454e4345207075626c69632e64656c617965645f6a6f62735f69645f736571204f574e4544204259207075626c69632e64656c617965;
0x645f6a6f62732e69643b0a0101000000010100000000060000007075626c6963010100000001010000000008000000706f737467726573000500000066616c73;
0x6500030000003234340101000000000000000000f5000000000000000000040000003132353900050000003137323234000e00000064696172795f636f6d6d65;
0x6e747300050000005441424c4500020000000081010000435245415445205441424c45207075626c69632e64696172795f636f6d6d656e747320280a20202020;
0x696420626967696e74204e4f54204e554c4c2c0a2020202064696172795f656e7472795f696420626967696e74204e4f54204e554c4c2c0a2020202075736572;
0x5f696420626967696e74204e4f54204e554c4c2c0a20202020626f64792074657874204e4f54204e554c4c2c0a20202020637265617465645f61742074696d65;
0x7374616d7020776974686f75742074696d65207a6f6e65204e4f54204e554c4c2c0a20202020757064617465645f61742074696d657374616d7020776974686f;
0x75742074696d65207a6f6e65204e4f54204e554c4c2c0a2020202076697369626c6520626f6f6c65616e2044454641554c542074727565204e4f54204e554c4c;
0x2c0a20202020626f64795f666f726d6174207075626c69632e666f726d61745f656e756d2044454641554c5420276d61726b646f776e273a3a7075626c69632e;
0x666f726d61745f656e756d204e4f54204e554c4c0a293b0a002200000044524f50205441424c45207075626c69632e64696172795f636f6d6d656e74733b0a01;
0x0100000000060000007075626c696300000000000004000000686561700008000000706f737467726573000500000066616c7365000400000031313238000400;
0x0000313132380101000000000000000000f6000000000000000000040000003132353900050000003137323331001500000064696172795f636f6d6d656e7473;
0x5f69645f736571000800000053455155454e43450002000000007e0000004352454154452053455155454e4345207075626c69632e64696172795f636f6d6d65;
0x6e74735f69645f7365710a202020205354415254205749544820310a20202020494e4352454d454e5420425920310a202020204e4f204d494e56414c55450a20;
0x2020204e4f204d415856414c55450a20202020434143484520313b0a002c00000044524f502053455155454e4345207075626c69632e64696172795f636f6d6d;
0x656e74735f69645f7365713b0a010100000000060000007075626c6963010100000001010000000008000000706f737467726573000500000066616c73650003;
0x0000003234350101000000000000000000da1000000000000000000100000030000100000030001500000064696172795f636f6d6d656e74735f69645f736571;
0x001100000053455155454e4345204f574e45442042590002000000004f000000414c5445522053455155454e4345207075626c69632e64696172795f636f6d6d;
0x656e74735f69645f736571204f574e4544204259207075626c69632e64696172795f636f6d6d656e74732e69643b0a0101000000010100000000060000007075;
0x626c6963010100000001010000000008000000706f737467726573000500000066616c736500030000003234360101000000000000000000f700000000000000;
0x0000040000003132353900050000003137323332000d00000064696172795f656e747269657300050000005441424c450002000000000f020000435245415445;
0x205441424c45207075626c69632e64696172795f656e747269657320280a20202020696420626967696e74204e4f54204e554c4c2c0a20202020757365725f69;
0x6420626967696e74204e4f54204e554c4c2c0a202020207469746c65206368617261637465722076617279696e67204e4f54204e554c4c2c0a20202020626f64;
0x792074657874204e4f54204e554c4c2c0a20202020637265617465645f61742074696d657374616d7020776974686f75742074696d65207a6f6e65204e4f5420;
0x4e554c4c2c0a20202020757064617465645f61742074696d657374616d7020776974686f75742074696d65207a6f6e65204e4f54204e554c4c2c0a202020206c;
0x6174697475646520646f75626c6520707265636973696f6e2c0a202020206c6f6e67697475646520646f75626c6520707265636973696f6e2c0a202020206c61;
0x6e67756167655f636f6465206368617261637465722076617279696e672044454641554c542027656e273a3a6368617261637465722076617279696e67204e4f;
0x54204e554c4c2c0a2020202076697369626c6520626f6f6c65616e2044454641554c542074727565204e4f54204e554c4c2c0a20202020626f64795f666f726d;
0x6174207075626c69632e666f726d61745f656e756d2044454641554c5420276d61726b646f776e273a3a7075626c69632e666f726d61745f656e756d204e4f54;
0x204e554c4c0a293b0a002100000044524f50205441424c45207075626c69632e64696172795f656e74726965733b0a010100000000060000007075626c696300;
0x000000000004000000686561700008000000706f737467726573000500000066616c736500040000003131323800040000003131323801010000000000000000;
0x00f8000000000000000000040000003132353900050000003137323430001400000064696172795f656e74726965735f69645f73657100080000005345515545;
0x4e43450002000000007d0000004352454154452053455155454e4345207075626c69632e64696172795f656e74726965735f69645f7365710a20202020535441;
0x5254205749544820310a20202020494e4352454d454e5420425920310a202020204e4f204d494e56414c55450a202020204e4f204d415856414c55450a202020;
0x20434143484520313b0a002b00000044524f502053455155454e4345207075626c69632e64696172795f656e74726965735f69645f7365713b0a010100000000;
0x060000007075626c6963010100000001010000000008000000706f737467726573000500000066616c736500030000003234370101000000000000000000db10;
0x00000000000000000100000030000100000030001400000064696172795f656e74726965735f69645f736571001100000053455155454e4345204f574e454420;
0x42590002000000004d000000414c5445522053455155454e4345207075626c69632e64696172795f656e74726965735f69645f736571204f574e454420425920;
0x7075626c69632e64696172795f656e74726965732e69643b0a0101000000010100000000060000007075626c6963010100000001010000000008000000706f73;
0x7467726573000500000066616c736500030000003234380101000000000000000000f90000000000000000000400000031323539000500000031373234310019;
0x00000064696172795f656e7472795f737562736372697074696f6e7300050000005441424c4500020000000073000000435245415445205441424c4520707562;
0x6c69632e64696172795f656e7472795f737562736372697074696f6e7320280a20202020757365725f696420626967696e74204e4f54204e554c4c2c0a202020;
0x2064696172795f656e7472795f696420626967696e74204e4f54204e554c4c0a293b0a002d00000044524f50205441424c45207075626c69632e64696172795f;
0x656e7472795f737562736372697074696f6e733b0a010100000000060000007075626c696300000000000004000000686561700008000000706f737467726573;
0x000500000066616c73650101000000000000000000fa0000000000000000000400000031323539000500000031373234340007000000667269656e6473000500;
0x00005441424c45000200000000a5000000435245415445205441424c45207075626c69632e667269656e647320280a20202020696420626967696e74204e4f54;
0x204e554c4c2c0a20202020757365725f696420626967696e74204e4f54204e554c4c2c0a20202020667269656e645f757365725f696420626967696e74204e4f;
0x54204e554c4c2c0a20202020637265617465645f61742074696d657374616d7020776974686f75742074696d65207a6f6e650a293b0a001b00000044524f5020;
0x5441424c45207075626c69632e667269656e64733b0a010100000000060000007075626c696300000000000004000000686561700008000000706f7374677265;
0x73000500000066616c73650101000000000000000000fb000000000000000000040000003132353900050000003137323437000e000000667269656e64735f69;
0x645f736571000800000053455155454e4345000200000000770000004352454154452053455155454e4345207075626c69632e667269656e64735f69645f7365;
0x710a202020205354415254205749544820310a20202020494e4352454d454e5420425920310a202020204e4f204d494e56414c55450a202020204e4f204d4158;
0x56414c55450a20202020434143484520313b0a002500000044524f502053455155454e4345207075626c69632e667269656e64735f69645f7365713b0a010100;
0x000000060000007075626c6963010100000001010000000008000000706f737467726573000500000066616c7365000300000032353001010000000000000000;
0x00dc1000000000000000000100000030000100000030000e000000667269656e64735f69645f736571001100000053455155454e4345204f574e454420425900;
0x020000000041000000414c5445522053455155454e4345207075626c69632e667269656e64735f69645f736571204f574e4544204259207075626c69632e6672;
0x69656e64732e69643b0a0101000000010100000000060000007075626c6963010100000001010000000008000000706f737467726573000500000066616c7365;
0x00030000003235310101000000000000000000fc000000000000000000040000003132353900050000003137323438000a0000006770735f706f696e74730005;
0x0000005441424c45000200000000f9000000435245415445205441424c45207075626c69632e6770735f706f696e747320280a20202020616c74697475646520;
0x646f75626c6520707265636973696f6e2c0a20202020747261636b696420696e7465676572204e4f54204e554c4c2c0a202020206c6174697475646520696e74;
0x65676572204e4f54204e554c4c2c0a202020206c6f6e67697475646520696e7465676572204e4f54204e554c4c2c0a202020206770785f696420626967696e74;
0x204e4f54204e554c4c2c0a202020202274696d657374616d70222074696d657374616d7020776974686f75742074696d65207a6f6e652c0a2020202074696c65;
0x20626967696e740a293b0a001e00000044524f50205441424c45207075626c69632e6770735f706f696e74733b0a010100000000060000007075626c69630000;
0x0000000004000000686561700008000000706f737467726573000500000066616c73650101000000000000000000fd0000000000000000000400000031323539;
0x00050000003137323531000d0000006770785f66696c655f7461677300050000005441424c450002000000007e000000435245415445205441424c4520707562;
0x6c69632e6770785f66696c655f7461677320280a202020206770785f696420626967696e74204e4f54204e554c4c2c0a20202020746167206368617261637465;
0x722076617279696e67204e4f54204e554c4c2c0a20202020696420626967696e74204e4f54204e554c4c0a293b0a002100000044524f50205441424c45207075;
0x626c69632e6770785f66696c655f746167733b0a010100000000060000007075626c696300000000000004000000686561700008000000706f73746772657300;
0x0500000066616c73650101000000000000000000fe00000000000000000004000000313235390005000000313732353600140000006770785f66696c655f7461;
0x67735f69645f736571000800000053455155454e43450002000000007d0000004352454154452053455155454e4345207075626c69632e6770785f66696c655f;
0x746167735f69645f7365710a202020205354415254205749544820310a20202020494e4352454d454e5420425920310a202020204e4f204d494e56414c55450a;
0x202020204e4f204d415856414c55450a20202020434143484520313b0a002b00000044524f502053455155454e4345207075626c69632e6770785f66696c655f;
0x746167735f69645f7365713b0a010100000000060000007075626c6963010100000001010000000008000000706f737467726573000500000066616c73650003;
0x0000003235330101000000000000000000dd100000000000000000010000003000010000003000140000006770785f66696c655f746167735f69645f73657100;
0x1100000053455155454e4345204f574e45442042590002000000004d000000414c5445522053455155454e4345207075626c69632e6770785f66696c655f7461;
0x67735f69645f736571204f574e4544204259207075626c69632e6770785f66696c655f746167732e69643b0a0101000000010100000000060000007075626c69;
0x63010100000001010000000008000000706f737467726573000500000066616c736500030000003235340101000000000000000000ff00000000000000000004;
0x000000313235390005000000313732353700090000006770785f66696c657300050000005441424c4500020000000015020000435245415445205441424c4520;
0x7075626c69632e6770785f66696c657320280a20202020696420626967696e74204e4f54204e554c4c2c0a20202020757365725f696420626967696e74204e4f;
0x54204e554c4c2c0a2020202076697369626c6520626f6f6c65616e2044454641554c542074727565204e4f54204e554c4c2c0a202020206e616d652063686172;
0x61637465722076617279696e672044454641554c542027273a3a6368617261637465722076617279696e67204e4f54204e554c4c2c0a2020202073697a652062;
0x6967696e742c0a202020206c6174697475646520646f75626c6520707265636973696f6e2c0a202020206c6f6e67697475646520646f75626c65207072656369;
0x73696f6e2c0a202020202274696d657374616d70222074696d657374616d7020776974686f75742074696d65207a6f6e65204e4f54204e554c4c2c0a20202020;
0x6465736372697074696f6e206368617261637465722076617279696e672044454641554c542027273a3a6368617261637465722076617279696e67204e4f5420;
0x4e554c4c2c0a20202020696e73657274656420626f6f6c65616e204e4f54204e554c4c2c0a202020207669736962696c697479207075626c69632e6770785f76;
0x69736962696c6974795f656e756d2044454641554c5420277075626c6963273a3a7075626c69632e6770785f7669736962696c6974795f656e756d204e4f5420;
0x4e554c4c0a293b0a001d00000044524f50205441424c45207075626c69632e6770785f66696c65733b0a010100000000060000007075626c6963000000000000;
0x04000000686561700008000000706f737467726573000500000066616c7365000400000031313331000400000031313331010100000000000000000000010000;
0x00000000000004000000313235390005000000313732363600100000006770785f66696c65735f69645f736571000800000053455155454e4345000200000000;
0x790000004352454154452053455155454e4345207075626c69632e6770785f66696c65735f69645f7365710a202020205354415254205749544820310a202020;
0x20494e4352454d454e5420425920310a202020204e4f204d494e56414c55450a202020204e4f204d415856414c55450a20202020434143484520313b0a002700;
0x000044524f502053455155454e4345207075626c69632e6770785f66696c65735f69645f7365713b0a010100000000060000007075626c696301010000000101;
0x0000000008000000706f737467726573000500000066616c736500030000003235350101000000000000000000de100000000000000000010000003000010000;
0x003000100000006770785f66696c65735f69645f736571001100000053455155454e4345204f574e454420425900020000000045000000414c54455220534551;
0x55454e4345207075626c69632e6770785f66696c65735f69645f736571204f574e4544204259207075626c69632e6770785f66696c65732e69643b0a01010000;
0x00010100000000060000007075626c6963010100000001010000000008000000706f737467726573000500000066616c73650003000000323536010100000000;
0x000000000001010000000000000000040000003132353900050000003137323637000e00000069737375655f636f6d6d656e747300050000005441424c450002;
0x00000000ff000000435245415445205441424c45207075626c69632e69737375655f636f6d6d656e747320280a20202020696420696e7465676572204e4f5420;
0x4e554c4c2c0a2020202069737375655f696420696e7465676572204e4f54204e554c4c2c0a20202020757365725f696420696e7465676572204e4f54204e554c;
0x4c2c0a20202020626f64792074657874204e4f54204e554c4c2c0a20202020637265617465645f61742074696d657374616d7020776974686f75742074696d65;
0x207a6f6e65204e4f54204e554c4c2c0a20202020757064617465645f61742074696d657374616d7020776974686f75742074696d65207a6f6e65204e4f54204e;
0x554c4c0a293b0a002200000044524f50205441424c45207075626c69632e69737375655f636f6d6d656e74733b0a010100000000060000007075626c69630000;
0x0000000004000000686561700008000000706f737467726573000500000066616c73650101000000000000000000020100000000000000000400000031323539;
0x00050000003137323732001500000069737375655f636f6d6d656e74735f69645f736571000800000053455155454e43450002000000008d0000004352454154;
0x452053455155454e4345207075626c69632e69737375655f636f6d6d656e74735f69645f7365710a20202020415320696e74656765720a202020205354415254;
0x205749544820310a20202020494e4352454d454e5420425920310a202020204e4f204d494e56414c55450a202020204e4f204d415856414c55450a2020202043;
0x4143484520313b0a002c00000044524f502053455155454e4345207075626c69632e69737375655f636f6d6d656e74735f69645f7365713b0a01010000000006;
0x0000007075626c6963010100000001010000000008000000706f737467726573000500000066616c736500030000003235370101000000000000000000df1000;
0x000000000000000100000030000100000030001500000069737375655f636f6d6d656e74735f69645f736571001100000053455155454e4345204f574e454420;
0x42590002000000004f000000414c5445522053455155454e4345207075626c69632e69737375655f636f6d6d656e74735f69645f736571204f574e4544204259;
0x207075626c69632e69737375655f636f6d6d656e74732e69643b0a0101000000010100000000060000007075626c696301010000000101000000000800000070;
0x6f737467726573000500000066616c73650003000000323538010100000000000000000003010000000000000000040000003132353900050000003137323733;
0x000600000069737375657300050000005441424c4500020000000020020000435245415445205441424c45207075626c69632e69737375657320280a20202020;
0x696420696e7465676572204e4f54204e554c4c2c0a202020207265706f727461626c655f74797065206368617261637465722076617279696e67204e4f54204e;
0x554c4c2c0a202020207265706f727461626c655f696420696e7465676572204e4f54204e554c4c2c0a202020207265706f727465645f757365725f696420696e;
0x74656765722c0a20202020737461747573207075626c69632e69737375655f7374617475735f656e756d2044454641554c5420276f70656e273a3a7075626c69;
0x632e69737375655f7374617475735f656e756d204e4f54204e554c4c2c0a2020202061737369676e65645f726f6c65207075626c69632e757365725f726f6c65;
0x5f656e756d204e4f54204e554c4c2c0a202020207265736f6c7665645f61742074696d657374616d7020776974686f75742074696d65207a6f6e652c0a202020].
Definition toc_words_2 : list Z := [
0x207265736f6c7665645f627920696e74656765722c0a20202020757064617465645f627920696e74656765722c0a202020207265706f7274735f636f756e7420;
0x696e74656765722044454641554c5420302c0a20202020637265617465645f61742074696d657374616d7020776974686f75742074696d65207a6f6e65204e4f;
0x54204e554c4c2c0a20202020757064617465645f61742074696d657374616d7020776974686f75742074696d65207a6f6e65204e4f54204e554c4c0a293b0a00;
0x1a00000044524f50205441424c45207075626c69632e6973737565733b0a010100000000060000007075626c6963000000000000040000006865617000080000;
0x00706f737467726573000500000066616c7365000400000031313334000400000031313436000400000031313334010100000000000000000004010000000000;
0x000000040000003132353900050000003137323830000d0000006973737565735f69645f736571000800000053455155454e4345000200000000850000004352;
0x454154452053455155454e4345207075626c69632e6973737565735f69645f7365710a20202020415320696e74656765720a2020202053544152542057495448;
0x20310a20202020494e4352454d454e5420425920310a202020204e4f204d494e56414c55450a202020204e4f204d415856414c55450a20202020434143484520;
0x313b0a002400000044524f502053455155454e4345207075626c69632e6973737565735f69645f7365713b0a010100000000060000007075626c696301010000;
0x0001010000000008000000706f737467726573000500000066616c736500030000003235390101000000000000000000e0100000000000000000010000003000;
0x0100000030000d0000006973737565735f69645f736571001100000053455155454e4345204f574e45442042590002000000003f000000414c54455220534551;
0x55454e4345207075626c69632e6973737565735f69645f736571204f574e4544204259207075626c69632e6973737565732e69643b0a01010000000101000000;
0x00060000007075626c6963010100000001010000000008000000706f737467726573000500000066616c73650003000000323630010100000000000000000005;
0x01000000000000000004000000313235390005000000313732383100090000006c616e67756167657300050000005441424c4500020000000097000000435245;
0x415445205441424c45207075626c69632e6c616e67756167657320280a20202020636f6465206368617261637465722076617279696e67204e4f54204e554c4c;
0x2c0a20202020656e676c6973685f6e616d65206368617261637465722076617279696e67204e4f54204e554c4c2c0a202020206e61746976655f6e616d652063;
0x68617261637465722076617279696e670a293b0a001d00000044524f50205441424c45207075626c69632e6c616e6775616765733b0a01010000000006000000;
0x7075626c696300000000000004000000686561700008000000706f737467726573000500000066616c7365010100000000000000000006010000000000000000;
0x04000000313235390005000000313732383600080000006d6573736167657300050000005441424c45000200000000d8010000435245415445205441424c4520;
0x7075626c69632e6d6573736167657320280a20202020696420626967696e74204e4f54204e554c4c2c0a2020202066726f6d5f757365725f696420626967696e;
0x74204e4f54204e554c4c2c0a202020207469746c65206368617261637465722076617279696e67204e4f54204e554c4c2c0a20202020626f6479207465787420;
0x4e4f54204e554c4c2c0a2020202073656e745f6f6e2074696d657374616d7020776974686f75742074696d65207a6f6e65204e4f54204e554c4c2c0a20202020;
0x6d6573736167655f7265616420626f6f6c65616e2044454641554c542066616c7365204e4f54204e554c4c2c0a20202020746f5f757365725f69642062696769;
0x6e74204e4f54204e554c4c2c0a20202020746f5f757365725f76697369626c6520626f6f6c65616e2044454641554c542074727565204e4f54204e554c4c2c0a;
0x2020202066726f6d5f757365725f76697369626c6520626f6f6c65616e2044454641554c542074727565204e4f54204e554c4c2c0a20202020626f64795f666f;
0x726d6174207075626c69632e666f726d61745f656e756d2044454641554c5420276d61726b646f776e273a3a7075626c69632e666f726d61745f656e756d204e;
0x4f54204e554c4c0a293b0a001c00000044524f50205441424c45207075626c69632e6d657373616765733b0a010100000000060000007075626c696300000000;
0x000004000000686561700008000000706f737467726573000500000066616c736500040000003131323800040000003131323801010000000000000000000701;
0x0000000000000000040000003132353900050000003137323935000f0000006d657373616765735f69645f736571000800000053455155454e43450002000000;
0x00780000004352454154452053455155454e4345207075626c69632e6d657373616765735f69645f7365710a202020205354415254205749544820310a202020;
0x20494e4352454d454e5420425920310a202020204e4f204d494e56414c55450a202020204e4f204d415856414c55450a20202020434143484520313b0a002600;
0x000044524f502053455155454e4345207075626c69632e6d657373616765735f69645f7365713b0a010100000000060000007075626c69630101000000010100;
0x00000008000000706f737467726573000500000066616c736500030000003236320101000000000000000000e110000000000000000001000000300001000000;
0x30000f0000006d657373616765735f69645f736571001100000053455155454e4345204f574e454420425900020000000043000000414c544552205345515545;
0x4e4345207075626c69632e6d657373616765735f69645f736571204f574e4544204259207075626c69632e6d657373616765732e69643b0a0101000000010100;
0x000000060000007075626c6963010100000001010000000008000000706f737467726573000500000066616c7365000300000032363301010000000000000000;
0x000801000000000000000004000000313235390005000000313732393600090000006e6f64655f7461677300050000005441424c45000200000000dc00000043;
0x5245415445205441424c45207075626c69632e6e6f64655f7461677320280a202020206e6f64655f696420626967696e74204e4f54204e554c4c2c0a20202020;
0x76657273696f6e20626967696e74204e4f54204e554c4c2c0a202020206b206368617261637465722076617279696e672044454641554c542027273a3a636861;
0x7261637465722076617279696e67204e4f54204e554c4c2c0a2020202076206368617261637465722076617279696e672044454641554c542027273a3a636861;
0x7261637465722076617279696e67204e4f54204e554c4c0a293b0a001d00000044524f50205441424c45207075626c69632e6e6f64655f746167733b0a010100;
0x000000060000007075626c696300000000000004000000686561700008000000706f737467726573000500000066616c73650101000000000000000000090100;
0x0000000000000004000000313235390005000000313733303300050000006e6f64657300050000005441424c4500020000000041010000435245415445205441;
0x424c45207075626c69632e6e6f64657320280a202020206e6f64655f696420626967696e74204e4f54204e554c4c2c0a202020206c6174697475646520696e74;
0x65676572204e4f54204e554c4c2c0a202020206c6f6e67697475646520696e7465676572204e4f54204e554c4c2c0a202020206368616e67657365745f696420;
0x626967696e74204e4f54204e554c4c2c0a2020202076697369626c6520626f6f6c65616e204e4f54204e554c4c2c0a202020202274696d657374616d70222074;
0x696d657374616d7020776974686f75742074696d65207a6f6e65204e4f54204e554c4c2c0a2020202074696c6520626967696e74204e4f54204e554c4c2c0a20;
0x20202076657273696f6e20626967696e74204e4f54204e554c4c2c0a20202020726564616374696f6e5f696420696e74656765720a293b0a001900000044524f;
0x50205441424c45207075626c69632e6e6f6465733b0a010100000000060000007075626c696300000000000004000000686561700008000000706f7374677265;
0x73000500000066616c736501010000000000000000000a010000000000000000040000003132353900050000003137333036000d0000006e6f74655f636f6d6d;
0x656e747300050000005441424c4500020000000009010000435245415445205441424c45207075626c69632e6e6f74655f636f6d6d656e747320280a20202020;
0x696420626967696e74204e4f54204e554c4c2c0a202020206e6f74655f696420626967696e74204e4f54204e554c4c2c0a2020202076697369626c6520626f6f;
0x6c65616e204e4f54204e554c4c2c0a20202020637265617465645f61742074696d657374616d7020776974686f75742074696d65207a6f6e65204e4f54204e55;
0x4c4c2c0a20202020617574686f725f697020696e65742c0a20202020617574686f725f696420626967696e742c0a20202020626f647920746578742c0a202020;
0x206576656e74207075626c69632e6e6f74655f6576656e745f656e756d0a293b0a002100000044524f50205441424c45207075626c69632e6e6f74655f636f6d;
0x6d656e74733b0a010100000000060000007075626c696300000000000004000000686561700008000000706f737467726573000500000066616c736500040000;
0x003131333701010000000000000000000b01000000000000000004000000313235390005000000313733313100140000006e6f74655f636f6d6d656e74735f69;
0x645f736571000800000053455155454e43450002000000008c0000004352454154452053455155454e4345207075626c69632e6e6f74655f636f6d6d656e7473;
0x5f69645f7365710a20202020415320696e74656765720a202020205354415254205749544820310a20202020494e4352454d454e5420425920310a202020204e;
0x4f204d494e56414c55450a202020204e4f204d415856414c55450a20202020434143484520313b0a002b00000044524f502053455155454e4345207075626c69;
0x632e6e6f74655f636f6d6d656e74735f69645f7365713b0a010100000000060000007075626c6963010100000001010000000008000000706f73746772657300;
0x0500000066616c736500030000003236360101000000000000000000e2100000000000000000010000003000010000003000140000006e6f74655f636f6d6d65;
0x6e74735f69645f736571001100000053455155454e4345204f574e45442042590002000000004d000000414c5445522053455155454e4345207075626c69632e;
0x6e6f74655f636f6d6d656e74735f69645f736571204f574e4544204259207075626c69632e6e6f74655f636f6d6d656e74732e69643b0a010100000001010000;
0x0000060000007075626c6963010100000001010000000008000000706f737467726573000500000066616c736500030000003236370101000000000000000000;
0x0c01000000000000000004000000313235390005000000313733313200050000006e6f74657300050000005441424c4500020000000051010000435245415445;
0x205441424c45207075626c69632e6e6f74657320280a20202020696420626967696e74204e4f54204e554c4c2c0a202020206c6174697475646520696e746567;
0x6572204e4f54204e554c4c2c0a202020206c6f6e67697475646520696e7465676572204e4f54204e554c4c2c0a2020202074696c6520626967696e74204e4f54;
0x204e554c4c2c0a20202020757064617465645f61742074696d657374616d7020776974686f75742074696d65207a6f6e65204e4f54204e554c4c2c0a20202020;
0x637265617465645f61742074696d657374616d7020776974686f75742074696d65207a6f6e65204e4f54204e554c4c2c0a20202020737461747573207075626c;
0x69632e6e6f74655f7374617475735f656e756d204e4f54204e554c4c2c0a20202020636c6f7365645f61742074696d657374616d7020776974686f7574207469;
0x6d65207a6f6e650a293b0a001900000044524f50205441424c45207075626c69632e6e6f7465733b0a010100000000060000007075626c696300000000000004;
0x000000686561700008000000706f737467726573000500000066616c736500040000003131343001010000000000000000000d01000000000000000004000000;
0x3132353900050000003137333135000c0000006e6f7465735f69645f736571000800000053455155454e43450002000000008400000043524541544520534551;
0x55454e4345207075626c69632e6e6f7465735f69645f7365710a20202020415320696e74656765720a202020205354415254205749544820310a20202020494e;
0x4352454d454e5420425920310a202020204e4f204d494e56414c55450a202020204e4f204d415856414c55450a20202020434143484520313b0a002300000044;
0x524f502053455155454e4345207075626c69632e6e6f7465735f69645f7365713b0a010100000000060000007075626c69630101000000010100000000080000;
0x00706f737467726573000500000066616c736500030000003236380101000000000000000000e31000000000000000000100000030000100000030000c000000;
0x6e6f7465735f69645f736571001100000053455155454e4345204f574e45442042590002000000003d000000414c5445522053455155454e4345207075626c69;
0x632e6e6f7465735f69645f736571204f574e4544204259207075626c69632e6e6f7465732e69643b0a0101000000010100000000060000007075626c69630101;
0x00000001010000000008000000706f737467726573000500000066616c7365000300000032363901010000000000000000000e01000000000000000004000000;
0x313235390005000000313733313600130000006f617574685f6163636573735f6772616e747300050000005441424c45000200000000ef010000435245415445;
0x205441424c45207075626c69632e6f617574685f6163636573735f6772616e747320280a20202020696420626967696e74204e4f54204e554c4c2c0a20202020;
0x7265736f757263655f6f776e65725f696420626967696e74204e4f54204e554c4c2c0a202020206170706c69636174696f6e5f696420626967696e74204e4f54;
0x204e554c4c2c0a20202020746f6b656e206368617261637465722076617279696e67204e4f54204e554c4c2c0a20202020657870697265735f696e20696e7465;
0x676572204e4f54204e554c4c2c0a2020202072656469726563745f7572692074657874204e4f54204e554c4c2c0a20202020637265617465645f61742074696d;
0x657374616d7020776974686f75742074696d65207a6f6e65204e4f54204e554c4c2c0a202020207265766f6b65645f61742074696d657374616d702077697468;
0x6f75742074696d65207a6f6e652c0a2020202073636f706573206368617261637465722076617279696e672044454641554c542027273a3a6368617261637465;
0x722076617279696e67204e4f54204e554c4c2c0a20202020636f64655f6368616c6c656e6765206368617261637465722076617279696e672c0a20202020636f;
0x64655f6368616c6c656e67655f6d6574686f64206368617261637465722076617279696e670a293b0a002700000044524f50205441424c45207075626c69632e;
0x6f617574685f6163636573735f6772616e74733b0a010100000000060000007075626c696300000000000004000000686561700008000000706f737467726573;
0x000500000066616c736501010000000000000000000f010000000000000000040000003132353900050000003137333232001a0000006f617574685f61636365;
0x73735f6772616e74735f69645f736571000800000053455155454e4345000200000000830000004352454154452053455155454e4345207075626c69632e6f61;
0x7574685f6163636573735f6772616e74735f69645f7365710a202020205354415254205749544820310a20202020494e4352454d454e5420425920310a202020;
0x204e4f204d494e56414c55450a202020204e4f204d415856414c55450a20202020434143484520313b0a003100000044524f502053455155454e434520707562;
0x6c69632e6f617574685f6163636573735f6772616e74735f69645f7365713b0a010100000000060000007075626c696301010000000101000000000800000070;
0x6f737467726573000500000066616c736500030000003237300101000000000000000000e41000000000000000000100000030000100000030001a0000006f61;
0x7574685f6163636573735f6772616e74735f69645f736571001100000053455155454e4345204f574e454420425900020000000059000000414c544552205345;
0x5155454e4345207075626c69632e6f617574685f6163636573735f6772616e74735f69645f736571204f574e4544204259207075626c69632e6f617574685f61;
0x63636573735f6772616e74732e69643b0a0101000000010100000000060000007075626c6963010100000001010000000008000000706f737467726573000500;
0x000066616c7365000300000032373101010000000000000000001001000000000000000004000000313235390005000000313733323300130000006f61757468;
0x5f6163636573735f746f6b656e7300050000005441424c45000200000000bd010000435245415445205441424c45207075626c69632e6f617574685f61636365;
0x73735f746f6b656e7320280a20202020696420626967696e74204e4f54204e554c4c2c0a202020207265736f757263655f6f776e65725f696420626967696e74;
0x2c0a202020206170706c69636174696f6e5f696420626967696e74204e4f54204e554c4c2c0a20202020746f6b656e206368617261637465722076617279696e;
0x67204e4f54204e554c4c2c0a20202020726566726573685f746f6b656e206368617261637465722076617279696e672c0a20202020657870697265735f696e20;
0x696e74656765722c0a202020207265766f6b65645f61742074696d657374616d7020776974686f75742074696d65207a6f6e652c0a2020202063726561746564;
0x5f61742074696d657374616d7020776974686f75742074696d65207a6f6e65204e4f54204e554c4c2c0a2020202073636f706573206368617261637465722076;
0x617279696e672c0a2020202070726576696f75735f726566726573685f746f6b656e206368617261637465722076617279696e672044454641554c542027273a;
0x3a6368617261637465722076617279696e67204e4f54204e554c4c0a293b0a002700000044524f50205441424c45207075626c69632e6f617574685f61636365;
0x73735f746f6b656e733b0a010100000000060000007075626c696300000000000004000000686561700008000000706f737467726573000500000066616c7365;
0x010100000000000000000011010000000000000000040000003132353900050000003137333239001a0000006f617574685f6163636573735f746f6b656e735f;
0x69645f736571000800000053455155454e4345000200000000830000004352454154452053455155454e4345207075626c69632e6f617574685f616363657373;
0x5f746f6b656e735f69645f7365710a202020205354415254205749544820310a20202020494e4352454d454e5420425920310a202020204e4f204d494e56414c;
0x55450a202020204e4f204d415856414c55450a20202020434143484520313b0a003100000044524f502053455155454e4345207075626c69632e6f617574685f;
0x6163636573735f746f6b656e735f69645f7365713b0a010100000000060000007075626c6963010100000001010000000008000000706f737467726573000500;
0x000066616c736500030000003237320101000000000000000000e51000000000000000000100000030000100000030001a0000006f617574685f616363657373;
0x5f746f6b656e735f69645f736571001100000053455155454e4345204f574e454420425900020000000059000000414c5445522053455155454e434520707562;
0x6c69632e6f617574685f6163636573735f746f6b656e735f69645f736571204f574e4544204259207075626c69632e6f617574685f6163636573735f746f6b65;
0x6e732e69643b0a0101000000010100000000060000007075626c6963010100000001010000000008000000706f737467726573000500000066616c7365000300;
0x000032373301010000000000000000001201000000000000000004000000313235390005000000313733333000120000006f617574685f6170706c6963617469;
0x6f6e7300050000005441424c4500020000000001020000435245415445205441424c45207075626c69632e6f617574685f6170706c69636174696f6e7320280a;
0x20202020696420626967696e74204e4f54204e554c4c2c0a202020206f776e65725f74797065206368617261637465722076617279696e67204e4f54204e554c;
0x4c2c0a202020206f776e65725f696420626967696e74204e4f54204e554c4c2c0a202020206e616d65206368617261637465722076617279696e67204e4f5420;
0x4e554c4c2c0a20202020756964206368617261637465722076617279696e67204e4f54204e554c4c2c0a20202020736563726574206368617261637465722076;
0x617279696e67204e4f54204e554c4c2c0a2020202072656469726563745f7572692074657874204e4f54204e554c4c2c0a2020202073636f7065732063686172;
0x61637465722076617279696e672044454641554c542027273a3a6368617261637465722076617279696e67204e4f54204e554c4c2c0a20202020636f6e666964;
0x656e7469616c20626f6f6c65616e2044454641554c542074727565204e4f54204e554c4c2c0a20202020637265617465645f61742074696d657374616d702836;
0x2920776974686f75742074696d65207a6f6e65204e4f54204e554c4c2c0a20202020757064617465645f61742074696d657374616d7028362920776974686f75;
0x742074696d65207a6f6e65204e4f54204e554c4c0a293b0a002600000044524f50205441424c45207075626c69632e6f617574685f6170706c69636174696f6e;
0x733b0a010100000000060000007075626c696300000000000004000000686561700008000000706f737467726573000500000066616c73650101000000000000;
0x0000001301000000000000000004000000313235390005000000313733333700190000006f617574685f6170706c69636174696f6e735f69645f736571000800;
0x000053455155454e4345000200000000820000004352454154452053455155454e4345207075626c69632e6f617574685f6170706c69636174696f6e735f6964;
0x5f7365710a202020205354415254205749544820310a20202020494e4352454d454e5420425920310a202020204e4f204d494e56414c55450a202020204e4f20;
0x4d415856414c55450a20202020434143484520313b0a003000000044524f502053455155454e4345207075626c69632e6f617574685f6170706c69636174696f;
0x6e735f69645f7365713b0a010100000000060000007075626c6963010100000001010000000008000000706f737467726573000500000066616c736500030000;
0x003237340101000000000000000000e6100000000000000000010000003000010000003000190000006f617574685f6170706c69636174696f6e735f69645f73;
0x6571001100000053455155454e4345204f574e454420425900020000000057000000414c5445522053455155454e4345207075626c69632e6f617574685f6170;
0x706c69636174696f6e735f69645f736571204f574e4544204259207075626c69632e6f617574685f6170706c69636174696f6e732e69643b0a01010000000101;
0x00000000060000007075626c6963010100000001010000000008000000706f737467726573000500000066616c73650003000000323735010100000000000000;
0x000014010000000000000000040000003132353900050000003137333338000c0000006f617574685f6e6f6e63657300050000005441424c45000200000000cb;
0x000000435245415445205441424c45207075626c69632e6f617574685f6e6f6e63657320280a20202020696420626967696e74204e4f54204e554c4c2c0a2020;
0x20206e6f6e6365206368617261637465722076617279696e672c0a202020202274696d657374616d702220696e74656765722c0a20202020637265617465645f;
0x61742074696d657374616d7020776974686f75742074696d65207a6f6e652c0a20202020757064617465645f61742074696d657374616d7020776974686f7574;
0x2074696d65207a6f6e650a293b0a002000000044524f50205441424c45207075626c69632e6f617574685f6e6f6e6365733b0a01010000000006000000707562;
0x6c696300000000000004000000686561700008000000706f737467726573000500000066616c7365010100000000000000000015010000000000000000040000;
0x00313235390005000000313733343300130000006f617574685f6e6f6e6365735f69645f736571000800000053455155454e43450002000000008b0000004352;
0x454154452053455155454e4345207075626c69632e6f617574685f6e6f6e6365735f69645f7365710a20202020415320696e74656765720a2020202053544152;
0x54205749544820310a20202020494e4352454d454e5420425920310a202020204e4f204d494e56414c55450a202020204e4f204d415856414c55450a20202020;
0x434143484520313b0a002a00000044524f502053455155454e4345207075626c69632e6f617574685f6e6f6e6365735f69645f7365713b0a0101000000000600;
0x00007075626c6963010100000001010000000008000000706f737467726573000500000066616c736500030000003237360101000000000000000000e7100000;
0x000000000000010000003000010000003000130000006f617574685f6e6f6e6365735f69645f736571001100000053455155454e4345204f574e454420425900;
0x02000000004b000000414c5445522053455155454e4345207075626c69632e6f617574685f6e6f6e6365735f69645f736571204f574e4544204259207075626c;
0x69632e6f617574685f6e6f6e6365732e69643b0a0101000000010100000000060000007075626c6963010100000001010000000008000000706f737467726573;
0x000500000066616c73650003000000323737010100000000000000000016010000000000000000040000003132353900050000003137333434000c0000006f61;
0x7574685f746f6b656e7300050000005441424c4500020000000091030000435245415445205441424c45207075626c69632e6f617574685f746f6b656e732028;
0x0a20202020696420696e7465676572204e4f54204e554c4c2c0a20202020757365725f696420696e74656765722c0a2020202074797065206368617261637465;
0x722076617279696e67283230292c0a20202020636c69656e745f6170706c69636174696f6e5f696420696e74656765722c0a20202020746f6b656e2063686172;
0x61637465722076617279696e67283530292c0a20202020736563726574206368617261637465722076617279696e67283530292c0a20202020617574686f7269;
0x7a65645f61742074696d657374616d7020776974686f75742074696d65207a6f6e652c0a20202020696e76616c6964617465645f61742074696d657374616d70;
0x20776974686f75742074696d65207a6f6e652c0a20202020637265617465645f61742074696d657374616d7020776974686f75742074696d65207a6f6e652c0a;
0x20202020757064617465645f61742074696d657374616d7020776974686f75742074696d65207a6f6e652c0a20202020616c6c6f775f726561645f7072656673;
0x20626f6f6c65616e2044454641554c542066616c7365204e4f54204e554c4c2c0a20202020616c6c6f775f77726974655f707265667320626f6f6c65616e2044;
0x454641554c542066616c7365204e4f54204e554c4c2c0a20202020616c6c6f775f77726974655f646961727920626f6f6c65616e2044454641554c542066616c;
0x7365204e4f54204e554c4c2c0a20202020616c6c6f775f77726974655f61706920626f6f6c65616e2044454641554c542066616c7365204e4f54204e554c4c2c;
0x0a20202020616c6c6f775f726561645f67707820626f6f6c65616e2044454641554c542066616c7365204e4f54204e554c4c2c0a20202020616c6c6f775f7772;
0x6974655f67707820626f6f6c65616e2044454641554c542066616c7365204e4f54204e554c4c2c0a2020202063616c6c6261636b5f75726c2063686172616374;
0x65722076617279696e672c0a202020207665726966696572206368617261637465722076617279696e67283230292c0a2020202073636f706520636861726163;
0x7465722076617279696e672c0a2020202076616c69645f746f2074696d657374616d7020776974686f75742074696d65207a6f6e652c0a20202020616c6c6f77;
0x5f77726974655f6e6f74657320626f6f6c65616e2044454641554c542066616c7365204e4f54204e554c4c0a293b0a002000000044524f50205441424c452070;
0x75626c69632e6f617574685f746f6b656e733b0a010100000000060000007075626c696300000000000004000000686561700008000000706f73746772657300;
0x0500000066616c736501010000000000000000001701000000000000000004000000313235390005000000313733353600130000006f617574685f746f6b656e;
0x735f69645f736571000800000053455155454e43450002000000008b0000004352454154452053455155454e4345207075626c69632e6f617574685f746f6b65;
0x6e735f69645f7365710a20202020415320696e74656765720a202020205354415254205749544820310a20202020494e4352454d454e5420425920310a202020;
0x204e4f204d494e56414c55450a202020204e4f204d415856414c55450a20202020434143484520313b0a002a00000044524f502053455155454e434520707562;
0x6c69632e6f617574685f746f6b656e735f69645f7365713b0a010100000000060000007075626c6963010100000001010000000008000000706f737467726573;
0x000500000066616c736500030000003237380101000000000000000000e8100000000000000000010000003000010000003000130000006f617574685f746f6b;
0x656e735f69645f736571001100000053455155454e4345204f574e45442042590002000000004b000000414c5445522053455155454e4345207075626c69632e;
0x6f617574685f746f6b656e735f69645f736571204f574e4544204259207075626c69632e6f617574685f746f6b656e732e69643b0a0101000000010100000000;
0x060000007075626c6963010100000001010000000008000000706f737467726573000500000066616c7365000300000032373901010000000000000000001801;
0x0000000000000000040000003132353900050000003137333537000a000000726564616374696f6e7300050000005441424c450002000000003f010000435245;
0x415445205441424c45207075626c69632e726564616374696f6e7320280a20202020696420696e7465676572204e4f54204e554c4c2c0a202020207469746c65;
0x206368617261637465722076617279696e672c0a202020206465736372697074696f6e20746578742c0a20202020637265617465645f61742074696d65737461;
0x6d7020776974686f75742074696d65207a6f6e652c0a20202020757064617465645f61742074696d657374616d7020776974686f75742074696d65207a6f6e65;
0x2c0a20202020757365725f696420626967696e74204e4f54204e554c4c2c0a202020206465736372697074696f6e5f666f726d6174207075626c69632e666f72;
0x6d61745f656e756d2044454641554c5420276d61726b646f776e273a3a7075626c69632e666f726d61745f656e756d204e4f54204e554c4c0a293b0a001e0000;
0x0044524f50205441424c45207075626c69632e726564616374696f6e733b0a010100000000060000007075626c69630000000000000400000068656170000800;
0x0000706f737467726573000500000066616c73650004000000313132380004000000313132380101000000000000000000190100000000000000000400000031;
0x323539000500000031373336330011000000726564616374696f6e735f69645f736571000800000053455155454e434500020000000089000000435245415445;
0x2053455155454e4345207075626c69632e726564616374696f6e735f69645f7365710a20202020415320696e74656765720a2020202053544152542057495448;
0x20310a20202020494e4352454d454e5420425920310a202020204e4f204d494e56414c55450a202020204e4f204d415856414c55450a20202020434143484520;
0x313b0a002800000044524f502053455155454e4345207075626c69632e726564616374696f6e735f69645f7365713b0a010100000000060000007075626c6963;
0x010100000001010000000008000000706f737467726573000500000066616c736500030000003238300101000000000000000000e91000000000000000000100;
0x0000300001000000300011000000726564616374696f6e735f69645f736571001100000053455155454e4345204f574e45442042590002000000004700000041;
0x4c5445522053455155454e4345207075626c69632e726564616374696f6e735f69645f736571204f574e4544204259207075626c69632e726564616374696f6e;
0x732e69643b0a0101000000010100000000060000007075626c6963010100000001010000000008000000706f737467726573000500000066616c736500030000;
0x0032383101010000000000000000001a010000000000000000040000003132353900050000003137333634001000000072656c6174696f6e5f6d656d62657273;
0x00050000005441424c4500020000000012010000435245415445205441424c45207075626c69632e72656c6174696f6e5f6d656d6265727320280a2020202072;
0x656c6174696f6e5f696420626967696e74204e4f54204e554c4c2c0a202020206d656d6265725f74797065207075626c69632e6e77725f656e756d204e4f5420;
0x4e554c4c2c0a202020206d656d6265725f696420626967696e74204e4f54204e554c4c2c0a202020206d656d6265725f726f6c65206368617261637465722076;
0x617279696e67204e4f54204e554c4c2c0a2020202076657273696f6e20626967696e742044454641554c542030204e4f54204e554c4c2c0a2020202073657175].
Definition toc_words_3 : list Z := [
0x656e63655f696420696e74656765722044454641554c542030204e4f54204e554c4c0a293b0a002400000044524f50205441424c45207075626c69632e72656c;
0x6174696f6e5f6d656d626572733b0a010100000000060000007075626c696300000000000004000000686561700008000000706f737467726573000500000066;
0x616c736500040000003131343301010000000000000000001b010000000000000000040000003132353900050000003137333731000d00000072656c6174696f;
0x6e5f7461677300050000005441424c45000200000000e4000000435245415445205441424c45207075626c69632e72656c6174696f6e5f7461677320280a2020;
0x202072656c6174696f6e5f696420626967696e74204e4f54204e554c4c2c0a202020206b206368617261637465722076617279696e672044454641554c542027;
0x273a3a6368617261637465722076617279696e67204e4f54204e554c4c2c0a2020202076206368617261637465722076617279696e672044454641554c542027;
0x273a3a6368617261637465722076617279696e67204e4f54204e554c4c2c0a2020202076657273696f6e20626967696e74204e4f54204e554c4c0a293b0a0021;
0x00000044524f50205441424c45207075626c69632e72656c6174696f6e5f746167733b0a010100000000060000007075626c6963000000000000040000006865;
0x61700008000000706f737467726573000500000066616c736501010000000000000000001c010000000000000000040000003132353900050000003137333738;
0x000900000072656c6174696f6e7300050000005441424c45000200000000fd000000435245415445205441424c45207075626c69632e72656c6174696f6e7320;
0x280a2020202072656c6174696f6e5f696420626967696e74204e4f54204e554c4c2c0a202020206368616e67657365745f696420626967696e74204e4f54204e;
0x554c4c2c0a202020202274696d657374616d70222074696d657374616d7020776974686f75742074696d65207a6f6e65204e4f54204e554c4c2c0a2020202076;
0x657273696f6e20626967696e74204e4f54204e554c4c2c0a2020202076697369626c6520626f6f6c65616e2044454641554c542074727565204e4f54204e554c;
0x4c2c0a20202020726564616374696f6e5f696420696e74656765720a293b0a001d00000044524f50205441424c45207075626c69632e72656c6174696f6e733b;
0x0a010100000000060000007075626c696300000000000004000000686561700008000000706f737467726573000500000066616c736501010000000000000000;
0x001d01000000000000000004000000313235390005000000313733383200070000007265706f72747300050000005441424c4500020000000024010000435245;
0x415445205441424c45207075626c69632e7265706f72747320280a20202020696420696e7465676572204e4f54204e554c4c2c0a2020202069737375655f6964;
0x20696e7465676572204e4f54204e554c4c2c0a20202020757365725f696420696e7465676572204e4f54204e554c4c2c0a2020202064657461696c7320746578;
0x74204e4f54204e554c4c2c0a2020202063617465676f7279206368617261637465722076617279696e67204e4f54204e554c4c2c0a2020202063726561746564;
0x5f61742074696d657374616d7020776974686f75742074696d65207a6f6e65204e4f54204e554c4c2c0a20202020757064617465645f61742074696d65737461;
0x6d7020776974686f75742074696d65207a6f6e65204e4f54204e554c4c0a293b0a001b00000044524f50205441424c45207075626c69632e7265706f7274733b;
0x0a010100000000060000007075626c696300000000000004000000686561700008000000706f737467726573000500000066616c736501010000000000000000;
0x001e010000000000000000040000003132353900050000003137333837000e0000007265706f7274735f69645f736571000800000053455155454e4345000200;
0x000000860000004352454154452053455155454e4345207075626c69632e7265706f7274735f69645f7365710a20202020415320696e74656765720a20202020;
0x5354415254205749544820310a20202020494e4352454d454e5420425920310a202020204e4f204d494e56414c55450a202020204e4f204d415856414c55450a;
0x20202020434143484520313b0a002500000044524f502053455155454e4345207075626c69632e7265706f7274735f69645f7365713b0a010100000000060000;
0x007075626c6963010100000001010000000008000000706f737467726573000500000066616c736500030000003238350101000000000000000000ea10000000;
0x00000000000100000030000100000030000e0000007265706f7274735f69645f736571001100000053455155454e4345204f574e454420425900020000000041;
0x000000414c5445522053455155454e4345207075626c69632e7265706f7274735f69645f736571204f574e4544204259207075626c69632e7265706f7274732e;
0x69643b0a0101000000010100000000060000007075626c6963010100000001010000000008000000706f737467726573000500000066616c7365000300000032;
0x383601010000000000000000001f0100000000000000000400000031323539000500000031373338380011000000736368656d615f6d6967726174696f6e7300;
0x050000005441424c4500020000000052000000435245415445205441424c45207075626c69632e736368656d615f6d6967726174696f6e7320280a2020202076;
0x657273696f6e206368617261637465722076617279696e67204e4f54204e554c4c0a293b0a002500000044524f50205441424c45207075626c69632e73636865;
0x6d615f6d6967726174696f6e733b0a010100000000060000007075626c696300000000000004000000686561700008000000706f737467726573000500000066;
0x616c7365010100000000000000000020010000000000000000040000003132353900050000003137333933000b000000757365725f626c6f636b730005000000;
0x5441424c45000200000000ba010000435245415445205441424c45207075626c69632e757365725f626c6f636b7320280a20202020696420696e746567657220;
0x4e4f54204e554c4c2c0a20202020757365725f696420626967696e74204e4f54204e554c4c2c0a2020202063726561746f725f696420626967696e74204e4f54;
0x204e554c4c2c0a20202020726561736f6e2074657874204e4f54204e554c4c2c0a20202020656e64735f61742074696d657374616d7020776974686f75742074;
0x696d65207a6f6e65204e4f54204e554c4c2c0a202020206e656564735f7669657720626f6f6c65616e2044454641554c542066616c7365204e4f54204e554c4c;
0x2c0a202020207265766f6b65725f696420626967696e742c0a20202020637265617465645f61742074696d657374616d7020776974686f75742074696d65207a;
0x6f6e652c0a20202020757064617465645f61742074696d657374616d7020776974686f75742074696d65207a6f6e652c0a20202020726561736f6e5f666f726d;
0x6174207075626c69632e666f726d61745f656e756d2044454641554c5420276d61726b646f776e273a3a7075626c69632e666f726d61745f656e756d204e4f54;
0x204e554c4c0a293b0a001f00000044524f50205441424c45207075626c69632e757365725f626c6f636b733b0a010100000000060000007075626c6963000000;
0x00000004000000686561700008000000706f737467726573000500000066616c7365000400000031313238000400000031313238010100000000000000000021;
0x0100000000000000000400000031323539000500000031373430300012000000757365725f626c6f636b735f69645f736571000800000053455155454e434500;
0x02000000008a0000004352454154452053455155454e4345207075626c69632e757365725f626c6f636b735f69645f7365710a20202020415320696e74656765;
0x720a202020205354415254205749544820310a20202020494e4352454d454e5420425920310a202020204e4f204d494e56414c55450a202020204e4f204d4158;
0x56414c55450a20202020434143484520313b0a002900000044524f502053455155454e4345207075626c69632e757365725f626c6f636b735f69645f7365713b;
0x0a010100000000060000007075626c6963010100000001010000000008000000706f737467726573000500000066616c73650003000000323838010100000000;
0x0000000000eb10000000000000000001000000300001000000300012000000757365725f626c6f636b735f69645f736571001100000053455155454e4345204f;
0x574e454420425900020000000049000000414c5445522053455155454e4345207075626c69632e757365725f626c6f636b735f69645f736571204f574e454420;
0x4259207075626c69632e757365725f626c6f636b732e69643b0a0101000000010100000000060000007075626c6963010100000001010000000008000000706f;
0x737467726573000500000066616c7365000300000032383901010000000000000000002201000000000000000004000000313235390005000000313734303100;
0x10000000757365725f707265666572656e63657300050000005441424c450002000000008a000000435245415445205441424c45207075626c69632e75736572;
0x5f707265666572656e63657320280a20202020757365725f696420626967696e74204e4f54204e554c4c2c0a202020206b206368617261637465722076617279;
0x696e67204e4f54204e554c4c2c0a2020202076206368617261637465722076617279696e67204e4f54204e554c4c0a293b0a002400000044524f50205441424c;
0x45207075626c69632e757365725f707265666572656e6365733b0a010100000000060000007075626c696300000000000004000000686561700008000000706f;
0x737467726573000500000066616c7365010100000000000000000023010000000000000000040000003132353900050000003137343036000a00000075736572;
0x5f726f6c657300050000005441424c45000200000000fa000000435245415445205441424c45207075626c69632e757365725f726f6c657320280a2020202069;
0x6420696e7465676572204e4f54204e554c4c2c0a20202020757365725f696420626967696e74204e4f54204e554c4c2c0a20202020726f6c65207075626c6963;
0x2e757365725f726f6c655f656e756d204e4f54204e554c4c2c0a20202020637265617465645f61742074696d657374616d7020776974686f75742074696d6520;
0x7a6f6e652c0a20202020757064617465645f61742074696d657374616d7020776974686f75742074696d65207a6f6e652c0a202020206772616e7465725f6964;
0x20626967696e74204e4f54204e554c4c0a293b0a001e00000044524f50205441424c45207075626c69632e757365725f726f6c65733b0a010100000000060000;
0x007075626c696300000000000004000000686561700008000000706f737467726573000500000066616c73650004000000313134360101000000000000000000;
0x240100000000000000000400000031323539000500000031373430390011000000757365725f726f6c65735f69645f736571000800000053455155454e434500;
0x0200000000890000004352454154452053455155454e4345207075626c69632e757365725f726f6c65735f69645f7365710a20202020415320696e7465676572;
0x0a202020205354415254205749544820310a20202020494e4352454d454e5420425920310a202020204e4f204d494e56414c55450a202020204e4f204d415856;
0x414c55450a20202020434143484520313b0a002800000044524f502053455155454e4345207075626c69632e757365725f726f6c65735f69645f7365713b0a01;
0x0100000000060000007075626c6963010100000001010000000008000000706f737467726573000500000066616c736500030000003239310101000000000000;
0x000000ec10000000000000000001000000300001000000300011000000757365725f726f6c65735f69645f736571001100000053455155454e4345204f574e45;
0x4420425900020000000047000000414c5445522053455155454e4345207075626c69632e757365725f726f6c65735f69645f736571204f574e45442042592070;
0x75626c69632e757365725f726f6c65732e69643b0a0101000000010100000000060000007075626c6963010100000001010000000008000000706f7374677265;
0x73000500000066616c73650003000000323932010100000000000000000025010000000000000000040000003132353900050000003137343130000b00000075;
0x7365725f746f6b656e7300050000005441424c45000200000000c2000000435245415445205441424c45207075626c69632e757365725f746f6b656e7320280a;
0x20202020696420626967696e74204e4f54204e554c4c2c0a20202020757365725f696420626967696e74204e4f54204e554c4c2c0a20202020746f6b656e2063;
0x68617261637465722076617279696e67204e4f54204e554c4c2c0a202020206578706972792074696d657374616d7020776974686f75742074696d65207a6f6e;
0x65204e4f54204e554c4c2c0a202020207265666572657220746578740a293b0a001f00000044524f50205441424c45207075626c69632e757365725f746f6b65;
0x6e733b0a010100000000060000007075626c696300000000000004000000686561700008000000706f737467726573000500000066616c736501010000000000;
0x00000000260100000000000000000400000031323539000500000031373431350012000000757365725f746f6b656e735f69645f736571000800000053455155;
0x454e43450002000000007b0000004352454154452053455155454e4345207075626c69632e757365725f746f6b656e735f69645f7365710a2020202053544152;
0x54205749544820310a20202020494e4352454d454e5420425920310a202020204e4f204d494e56414c55450a202020204e4f204d415856414c55450a20202020;
0x434143484520313b0a002900000044524f502053455155454e4345207075626c69632e757365725f746f6b656e735f69645f7365713b0a010100000000060000;
0x007075626c6963010100000001010000000008000000706f737467726573000500000066616c736500030000003239330101000000000000000000ed10000000;
0x000000000001000000300001000000300012000000757365725f746f6b656e735f69645f736571001100000053455155454e4345204f574e4544204259000200;
0x00000049000000414c5445522053455155454e4345207075626c69632e757365725f746f6b656e735f69645f736571204f574e4544204259207075626c69632e;
0x757365725f746f6b656e732e69643b0a0101000000010100000000060000007075626c6963010100000001010000000008000000706f73746772657300050000;
0x0066616c736500030000003239340101000000000000000000270100000000000000000400000031323539000500000031373431360005000000757365727300;
0x050000005441424c4500020000000038050000435245415445205441424c45207075626c69632e757365727320280a20202020656d61696c2063686172616374;
0x65722076617279696e67204e4f54204e554c4c2c0a20202020696420626967696e74204e4f54204e554c4c2c0a20202020706173735f63727970742063686172;
0x61637465722076617279696e67204e4f54204e554c4c2c0a202020206372656174696f6e5f74696d652074696d657374616d7020776974686f75742074696d65;
0x207a6f6e65204e4f54204e554c4c2c0a20202020646973706c61795f6e616d65206368617261637465722076617279696e672044454641554c542027273a3a63;
0x68617261637465722076617279696e67204e4f54204e554c4c2c0a20202020646174615f7075626c696320626f6f6c65616e2044454641554c542066616c7365;
0x204e4f54204e554c4c2c0a202020206465736372697074696f6e20746578742044454641554c542027273a3a74657874204e4f54204e554c4c2c0a2020202068;
0x6f6d655f6c617420646f75626c6520707265636973696f6e2c0a20202020686f6d655f6c6f6e20646f75626c6520707265636973696f6e2c0a20202020686f6d;
0x655f7a6f6f6d20736d616c6c696e742044454641554c5420332c0a20202020706173735f73616c74206368617261637465722076617279696e672c0a20202020;
0x656d61696c5f76616c696420626f6f6c65616e2044454641554c542066616c7365204e4f54204e554c4c2c0a202020206e65775f656d61696c20636861726163;
0x7465722076617279696e672c0a202020206372656174696f6e5f6970206368617261637465722076617279696e672c0a202020206c616e677561676573206368;
0x617261637465722076617279696e672c0a20202020737461747573207075626c69632e757365725f7374617475735f656e756d2044454641554c54202770656e;
0x64696e67273a3a7075626c69632e757365725f7374617475735f656e756d204e4f54204e554c4c2c0a202020207465726d735f6167726565642074696d657374;
0x616d7020776974686f75742074696d65207a6f6e652c0a20202020636f6e73696465725f706420626f6f6c65616e2044454641554c542066616c7365204e4f54;
0x204e554c4c2c0a20202020617574685f756964206368617261637465722076617279696e672c0a202020207072656665727265645f656469746f722063686172;
0x61637465722076617279696e672c0a202020207465726d735f7365656e20626f6f6c65616e2044454641554c542066616c7365204e4f54204e554c4c2c0a2020;
0x20206465736372697074696f6e5f666f726d6174207075626c69632e666f726d61745f656e756d2044454641554c5420276d61726b646f776e273a3a7075626c;
0x69632e666f726d61745f656e756d204e4f54204e554c4c2c0a202020206368616e6765736574735f636f756e7420696e74656765722044454641554c54203020;
0x4e4f54204e554c4c2c0a202020207472616365735f636f756e7420696e74656765722044454641554c542030204e4f54204e554c4c2c0a202020206469617279;
0x5f656e74726965735f636f756e7420696e74656765722044454641554c542030204e4f54204e554c4c2c0a20202020696d6167655f7573655f67726176617461;
0x7220626f6f6c65616e2044454641554c542066616c7365204e4f54204e554c4c2c0a20202020617574685f70726f766964657220636861726163746572207661;
0x7279696e672c0a20202020686f6d655f74696c6520626967696e742c0a20202020746f755f6167726565642074696d657374616d7020776974686f7574207469;
0x6d65207a6f6e650a293b0a001900000044524f50205441424c45207075626c69632e75736572733b0a010100000000060000007075626c696300000000000004;
0x000000686561700008000000706f737467726573000500000066616c736500040000003131343900040000003131323800040000003131343900040000003131;
0x3238010100000000000000000028010000000000000000040000003132353900050000003137343334000c00000075736572735f69645f736571000800000053;
0x455155454e4345000200000000750000004352454154452053455155454e4345207075626c69632e75736572735f69645f7365710a2020202053544152542057;
0x49544820310a20202020494e4352454d454e5420425920310a202020204e4f204d494e56414c55450a202020204e4f204d415856414c55450a20202020434143;
0x484520313b0a002300000044524f502053455155454e4345207075626c69632e75736572735f69645f7365713b0a010100000000060000007075626c69630101;
0x00000001010000000008000000706f737467726573000500000066616c736500030000003239350101000000000000000000ee10000000000000000001000000;
0x30000100000030000c00000075736572735f69645f736571001100000053455155454e4345204f574e45442042590002000000003d000000414c544552205345;
0x5155454e4345207075626c69632e75736572735f69645f736571204f574e4544204259207075626c69632e75736572732e69643b0a0101000000010100000000;
0x060000007075626c6963010100000001010000000008000000706f737467726573000500000066616c7365000300000032393601010000000000000000002901;
0x000000000000000004000000313235390005000000313734333500090000007761795f6e6f64657300050000005441424c450002000000009900000043524541;
0x5445205441424c45207075626c69632e7761795f6e6f64657320280a202020207761795f696420626967696e74204e4f54204e554c4c2c0a202020206e6f6465;
0x5f696420626967696e74204e4f54204e554c4c2c0a2020202076657273696f6e20626967696e74204e4f54204e554c4c2c0a2020202073657175656e63655f69;
0x6420626967696e74204e4f54204e554c4c0a293b0a001d00000044524f50205441424c45207075626c69632e7761795f6e6f6465733b0a010100000000060000;
0x007075626c696300000000000004000000686561700008000000706f737467726573000500000066616c736501010000000000000000002a0100000000000000;
0x0004000000313235390005000000313734333800080000007761795f7461677300050000005441424c450002000000009e000000435245415445205441424c45;
0x207075626c69632e7761795f7461677320280a202020207761795f696420626967696e74204e4f54204e554c4c2c0a202020206b206368617261637465722076;
0x617279696e67204e4f54204e554c4c2c0a2020202076206368617261637465722076617279696e67204e4f54204e554c4c2c0a2020202076657273696f6e2062;
0x6967696e74204e4f54204e554c4c0a293b0a001c00000044524f50205441424c45207075626c69632e7761795f746167733b0a01010000000006000000707562;
0x6c696300000000000004000000686561700008000000706f737467726573000500000066616c736501010000000000000000002b010000000000000000040000;
0x00313235390005000000313734343300040000007761797300050000005441424c45000200000000f3000000435245415445205441424c45207075626c69632e;
0x7761797320280a202020207761795f696420626967696e74204e4f54204e554c4c2c0a202020206368616e67657365745f696420626967696e74204e4f54204e;
0x554c4c2c0a202020202274696d657374616d70222074696d657374616d7020776974686f75742074696d65207a6f6e65204e4f54204e554c4c2c0a2020202076;
0x657273696f6e20626967696e74204e4f54204e554c4c2c0a2020202076697369626c6520626f6f6c65616e2044454641554c542074727565204e4f54204e554c;
0x4c2c0a20202020726564616374696f6e5f696420696e74656765720a293b0a001800000044524f50205441424c45207075626c69632e776179733b0a01010000;
0x0000060000007075626c696300000000000004000000686561700008000000706f737467726573000500000066616c736501010000000000000000007e0e0000;
0x000000000000040000003236303400050000003137343437000700000061636c73206964000700000044454641554c5400020000000062000000414c54455220;
0x5441424c45204f4e4c59207075626c69632e61636c7320414c54455220434f4c554d4e206964205345542044454641554c54206e65787476616c28277075626c;
0x69632e61636c735f69645f736571273a3a726567636c617373293b0a0036000000414c544552205441424c45207075626c69632e61636c7320414c5445522043;
0x4f4c554d4e2069642044524f502044454641554c543b0a010100000000060000007075626c6963010100000001010000000008000000706f7374677265730005;
0x00000066616c73650003000000323136000300000032313501010000000000000000007f0e000000000000000004000000323630340005000000313734343800;
0x1d0000006163746976655f73746f726167655f6174746163686d656e7473206964000700000044454641554c540002000000008e000000414c54455220544142;
0x4c45204f4e4c59207075626c69632e6163746976655f73746f726167655f6174746163686d656e747320414c54455220434f4c554d4e20696420534554204445;
0x4641554c54206e65787476616c28277075626c69632e6163746976655f73746f726167655f6174746163686d656e74735f69645f736571273a3a726567636c61;
0x7373293b0a004c000000414c544552205441424c45207075626c69632e6163746976655f73746f726167655f6174746163686d656e747320414c54455220434f;
0x4c554d4e2069642044524f502044454641554c543b0a010100000000060000007075626c6963010100000001010000000008000000706f737467726573000500;
0x000066616c7365000300000032313800030000003231370101000000000000000000800e00000000000000000400000032363034000500000031373434390017;
0x0000006163746976655f73746f726167655f626c6f6273206964000700000044454641554c5400020000000082000000414c544552205441424c45204f4e4c59;
0x207075626c69632e6163746976655f73746f726167655f626c6f627320414c54455220434f4c554d4e206964205345542044454641554c54206e65787476616c;
0x28277075626c69632e6163746976655f73746f726167655f626c6f62735f69645f736571273a3a726567636c617373293b0a0046000000414c54455220544142;
0x4c45207075626c69632e6163746976655f73746f726167655f626c6f627320414c54455220434f4c554d4e2069642044524f502044454641554c543b0a010100;
0x000000060000007075626c6963010100000001010000000008000000706f737467726573000500000066616c7365000300000032323000030000003231390101;
0x000000000000000000810e000000000000000004000000323630340005000000313734353000210000006163746976655f73746f726167655f76617269616e74;
0x5f7265636f726473206964000700000044454641554c5400020000000096000000414c544552205441424c45204f4e4c59207075626c69632e6163746976655f;
0x73746f726167655f76617269616e745f7265636f72647320414c54455220434f4c554d4e206964205345542044454641554c54206e65787476616c2827707562;
0x6c69632e6163746976655f73746f726167655f76617269616e745f7265636f7264735f69645f736571273a3a726567636c617373293b0a0050000000414c5445;
0x52205441424c45207075626c69632e6163746976655f73746f726167655f76617269616e745f7265636f72647320414c54455220434f4c554d4e206964204452;
0x4f502044454641554c543b0a010100000000060000007075626c6963010100000001010000000008000000706f737467726573000500000066616c7365000300;
0x000032323200030000003232310101000000000000000000820e000000000000000004000000323630340005000000313734353100150000006368616e676573;
0x65745f636f6d6d656e7473206964000700000044454641554c540002000000007e000000414c544552205441424c45204f4e4c59207075626c69632e6368616e;
0x67657365745f636f6d6d656e747320414c54455220434f4c554d4e206964205345542044454641554c54206e65787476616c28277075626c69632e6368616e67;
0x657365745f636f6d6d656e74735f69645f736571273a3a726567636c617373293b0a0044000000414c544552205441424c45207075626c69632e6368616e6765;
0x7365745f636f6d6d656e747320414c54455220434f4c554d4e2069642044524f502044454641554c543b0a010100000000060000007075626c69630101000000;
0x01010000000008000000706f737467726573000500000066616c7365000300000032323500030000003232340101000000000000000000850e00000000000000;
0x00040000003236303400050000003137343532000d0000006368616e676573657473206964000700000044454641554c540002000000006e000000414c544552;
0x205441424c45204f4e4c59207075626c69632e6368616e67657365747320414c54455220434f4c554d4e206964205345542044454641554c54206e6578747661;
0x6c28277075626c69632e6368616e6765736574735f69645f736571273a3a726567636c617373293b0a003c000000414c544552205441424c45207075626c6963;
0x2e6368616e67657365747320414c54455220434f4c554d4e2069642044524f502044454641554c543b0a010100000000060000007075626c6963010100000001;
0x010000000008000000706f737467726573000500000066616c7365000300000032323800030000003232370101000000000000000000870e0000000000000000;
0x0400000032363034000500000031373435330016000000636c69656e745f6170706c69636174696f6e73206964000700000044454641554c5400020000000080;
0x000000414c544552205441424c45204f4e4c59207075626c69632e636c69656e745f6170706c69636174696f6e7320414c54455220434f4c554d4e2069642053;
0x45542044454641554c54206e65787476616c28277075626c69632e636c69656e745f6170706c69636174696f6e735f69645f736571273a3a726567636c617373;
0x293b0a0045000000414c544552205441424c45207075626c69632e636c69656e745f6170706c69636174696f6e7320414c54455220434f4c554d4e2069642044;
0x524f502044454641554c543b0a010100000000060000007075626c6963010100000001010000000008000000706f737467726573000500000066616c73650003;
0x00000032333100030000003233300101000000000000000000910e0000000000000000040000003236303400050000003137343534001000000063757272656e;
0x745f6e6f646573206964000700000044454641554c5400020000000074000000414c544552205441424c45204f4e4c59207075626c69632e63757272656e745f;
0x6e6f64657320414c54455220434f4c554d4e206964205345542044454641554c54206e65787476616c28277075626c69632e63757272656e745f6e6f6465735f;
0x69645f736571273a3a726567636c617373293b0a003f000000414c544552205441424c45207075626c69632e63757272656e745f6e6f64657320414c54455220;
0x434f4c554d4e2069642044524f502044454641554c543b0a010100000000060000007075626c6963010100000001010000000008000000706f73746772657300;
0x0500000066616c7365000300000032333400030000003233330101000000000000000000950e0000000000000000040000003236303400050000003137343535;
0x001400000063757272656e745f72656c6174696f6e73206964000700000044454641554c540002000000007c000000414c544552205441424c45204f4e4c5920;
0x7075626c69632e63757272656e745f72656c6174696f6e7320414c54455220434f4c554d4e206964205345542044454641554c54206e65787476616c28277075;
0x626c69632e63757272656e745f72656c6174696f6e735f69645f736571273a3a726567636c617373293b0a0043000000414c544552205441424c45207075626c;
0x69632e63757272656e745f72656c6174696f6e7320414c54455220434f4c554d4e2069642044524f502044454641554c543b0a01010000000006000000707562;
0x6c6963010100000001010000000008000000706f737467726573000500000066616c736500030000003233380003000000323337010100000000000000000098;
0x0e0000000000000000040000003236303400050000003137343536000f00000063757272656e745f77617973206964000700000044454641554c540002000000;
0x0072000000414c544552205441424c45204f4e4c59207075626c69632e63757272656e745f7761797320414c54455220434f4c554d4e20696420534554204445;
0x4641554c54206e65787476616c28277075626c69632e63757272656e745f776179735f69645f736571273a3a726567636c617373293b0a003e000000414c5445;
0x52205441424c45207075626c69632e63757272656e745f7761797320414c54455220434f4c554d4e2069642044524f502044454641554c543b0a010100000000;
0x060000007075626c6963010100000001010000000008000000706f737467726573000500000066616c7365000300000032343200030000003234310101000000;
0x000000000000990e0000000000000000040000003236303400050000003137343537000f00000064656c617965645f6a6f627320696400070000004445464155;
0x4c5400020000000072000000414c544552205441424c45204f4e4c59207075626c69632e64656c617965645f6a6f627320414c54455220434f4c554d4e206964;
0x205345542044454641554c54206e65787476616c28277075626c69632e64656c617965645f6a6f62735f69645f736571273a3a726567636c617373293b0a003e;
0x000000414c544552205441424c45207075626c69632e64656c617965645f6a6f627320414c54455220434f4c554d4e2069642044524f502044454641554c543b;
0x0a010100000000060000007075626c6963010100000001010000000008000000706f737467726573000500000066616c73650003000000323434000300000032;
0x343301010000000000000000009c0e0000000000000000040000003236303400050000003137343538001100000064696172795f636f6d6d656e747320696400;
0x0700000044454641554c5400020000000076000000414c544552205441424c45204f4e4c59207075626c69632e64696172795f636f6d6d656e747320414c5445;
0x5220434f4c554d4e206964205345542044454641554c54206e65787476616c28277075626c69632e64696172795f636f6d6d656e74735f69645f736571273a3a;
0x726567636c617373293b0a0040000000414c544552205441424c45207075626c69632e64696172795f636f6d6d656e747320414c54455220434f4c554d4e2069;
0x642044524f502044454641554c543b0a010100000000060000007075626c6963010100000001010000000008000000706f737467726573000500000066616c73;
0x650003000000323436000300000032343501010000000000000000009f0e00000000000000000400000032363034000500000031373435390010000000646961;
0x72795f656e7472696573206964000700000044454641554c5400020000000074000000414c544552205441424c45204f4e4c59207075626c69632e6469617279].
Definition toc_words_4 : list Z := [
0x5f656e747269657320414c54455220434f4c554d4e206964205345542044454641554c54206e65787476616c28277075626c69632e64696172795f656e747269;
0x65735f69645f736571273a3a726567636c617373293b0a003f000000414c544552205441424c45207075626c69632e64696172795f656e747269657320414c54;
0x455220434f4c554d4e2069642044524f502044454641554c543b0a010100000000060000007075626c6963010100000001010000000008000000706f73746772;
0x6573000500000066616c7365000300000032343800030000003234370101000000000000000000a30e0000000000000000040000003236303400050000003137;
0x343630000a000000667269656e6473206964000700000044454641554c5400020000000068000000414c544552205441424c45204f4e4c59207075626c69632e;
0x667269656e647320414c54455220434f4c554d4e206964205345542044454641554c54206e65787476616c28277075626c69632e667269656e64735f69645f73;
0x6571273a3a726567636c617373293b0a0039000000414c544552205441424c45207075626c69632e667269656e647320414c54455220434f4c554d4e20696420;
0x44524f502044454641554c543b0a010100000000060000007075626c6963010100000001010000000008000000706f737467726573000500000066616c736500;
0x0300000032353100030000003235300101000000000000000000a40e000000000000000004000000323630340005000000313734363100100000006770785f66;
0x696c655f74616773206964000700000044454641554c5400020000000074000000414c544552205441424c45204f4e4c59207075626c69632e6770785f66696c;
0x655f7461677320414c54455220434f4c554d4e206964205345542044454641554c54206e65787476616c28277075626c69632e6770785f66696c655f74616773;
0x5f69645f736571273a3a726567636c617373293b0a003f000000414c544552205441424c45207075626c69632e6770785f66696c655f7461677320414c544552;
0x20434f4c554d4e2069642044524f502044454641554c543b0a010100000000060000007075626c6963010100000001010000000008000000706f737467726573;
0x000500000066616c7365000300000032353400030000003235330101000000000000000000a50e00000000000000000400000032363034000500000031373436;
0x32000c0000006770785f66696c6573206964000700000044454641554c540002000000006c000000414c544552205441424c45204f4e4c59207075626c69632e;
0x6770785f66696c657320414c54455220434f4c554d4e206964205345542044454641554c54206e65787476616c28277075626c69632e6770785f66696c65735f;
0x69645f736571273a3a726567636c617373293b0a003b000000414c544552205441424c45207075626c69632e6770785f66696c657320414c54455220434f4c55;
0x4d4e2069642044524f502044454641554c543b0a010100000000060000007075626c6963010100000001010000000008000000706f7374677265730005000000;
0x66616c7365000300000032353600030000003235350101000000000000000000aa0e000000000000000004000000323630340005000000313734363300110000;
0x0069737375655f636f6d6d656e7473206964000700000044454641554c5400020000000076000000414c544552205441424c45204f4e4c59207075626c69632e;
0x69737375655f636f6d6d656e747320414c54455220434f4c554d4e206964205345542044454641554c54206e65787476616c28277075626c69632e6973737565;
0x5f636f6d6d656e74735f69645f736571273a3a726567636c617373293b0a0040000000414c544552205441424c45207075626c69632e69737375655f636f6d6d;
0x656e747320414c54455220434f4c554d4e2069642044524f502044454641554c543b0a010100000000060000007075626c696301010000000101000000000800;
0x0000706f737467726573000500000066616c7365000300000032353800030000003235370101000000000000000000ab0e000000000000000004000000323630;
0x34000500000031373436340009000000697373756573206964000700000044454641554c5400020000000066000000414c544552205441424c45204f4e4c5920;
0x7075626c69632e69737375657320414c54455220434f4c554d4e206964205345542044454641554c54206e65787476616c28277075626c69632e697373756573;
0x5f69645f736571273a3a726567636c617373293b0a0038000000414c544552205441424c45207075626c69632e69737375657320414c54455220434f4c554d4e;
0x2069642044524f502044454641554c543b0a010100000000060000007075626c6963010100000001010000000008000000706f73746772657300050000006661;
0x6c7365000300000032363000030000003235390101000000000000000000ae0e0000000000000000040000003236303400050000003137343635000b0000006d;
0x65737361676573206964000700000044454641554c540002000000006a000000414c544552205441424c45204f4e4c59207075626c69632e6d65737361676573;
0x20414c54455220434f4c554d4e206964205345542044454641554c54206e65787476616c28277075626c69632e6d657373616765735f69645f736571273a3a72;
0x6567636c617373293b0a003a000000414c544552205441424c45207075626c69632e6d6573736167657320414c54455220434f4c554d4e2069642044524f5020;
0x44454641554c543b0a010100000000060000007075626c6963010100000001010000000008000000706f737467726573000500000066616c7365000300000032;
0x363300030000003236320101000000000000000000b50e000000000000000004000000323630340005000000313734363600100000006e6f74655f636f6d6d65;
0x6e7473206964000700000044454641554c5400020000000074000000414c544552205441424c45204f4e4c59207075626c69632e6e6f74655f636f6d6d656e74;
0x7320414c54455220434f4c554d4e206964205345542044454641554c54206e65787476616c28277075626c69632e6e6f74655f636f6d6d656e74735f69645f73;
0x6571273a3a726567636c617373293b0a003f000000414c544552205441424c45207075626c69632e6e6f74655f636f6d6d656e747320414c54455220434f4c55;
0x4d4e2069642044524f502044454641554c543b0a010100000000060000007075626c6963010100000001010000000008000000706f7374677265730005000000;
0x66616c7365000300000032363700030000003236360101000000000000000000b60e000000000000000004000000323630340005000000313734363700080000;
0x006e6f746573206964000700000044454641554c5400020000000064000000414c544552205441424c45204f4e4c59207075626c69632e6e6f74657320414c54;
0x455220434f4c554d4e206964205345542044454641554c54206e65787476616c28277075626c69632e6e6f7465735f69645f736571273a3a726567636c617373;
0x293b0a0037000000414c544552205441424c45207075626c69632e6e6f74657320414c54455220434f4c554d4e2069642044524f502044454641554c543b0a01;
0x0100000000060000007075626c6963010100000001010000000008000000706f737467726573000500000066616c736500030000003236390003000000323638;
0x0101000000000000000000b70e000000000000000004000000323630340005000000313734363800160000006f617574685f6163636573735f6772616e747320;
0x6964000700000044454641554c5400020000000080000000414c544552205441424c45204f4e4c59207075626c69632e6f617574685f6163636573735f677261;
0x6e747320414c54455220434f4c554d4e206964205345542044454641554c54206e65787476616c28277075626c69632e6f617574685f6163636573735f677261;
0x6e74735f69645f736571273a3a726567636c617373293b0a0045000000414c544552205441424c45207075626c69632e6f617574685f6163636573735f677261;
0x6e747320414c54455220434f4c554d4e2069642044524f502044454641554c543b0a010100000000060000007075626c69630101000000010100000000080000;
0x00706f737467726573000500000066616c7365000300000032373100030000003237300101000000000000000000b90e00000000000000000400000032363034;
0x0005000000313734363900160000006f617574685f6163636573735f746f6b656e73206964000700000044454641554c5400020000000080000000414c544552;
0x205441424c45204f4e4c59207075626c69632e6f617574685f6163636573735f746f6b656e7320414c54455220434f4c554d4e20696420534554204445464155;
0x4c54206e65787476616c28277075626c69632e6f617574685f6163636573735f746f6b656e735f69645f736571273a3a726567636c617373293b0a0045000000;
0x414c544552205441424c45207075626c69632e6f617574685f6163636573735f746f6b656e7320414c54455220434f4c554d4e2069642044524f502044454641;
0x554c543b0a010100000000060000007075626c6963010100000001010000000008000000706f737467726573000500000066616c736500030000003237330003;
0x0000003237320101000000000000000000bb0e000000000000000004000000323630340005000000313734373000150000006f617574685f6170706c69636174;
0x696f6e73206964000700000044454641554c540002000000007e000000414c544552205441424c45204f4e4c59207075626c69632e6f617574685f6170706c69;
0x636174696f6e7320414c54455220434f4c554d4e206964205345542044454641554c54206e65787476616c28277075626c69632e6f617574685f6170706c6963;
0x6174696f6e735f69645f736571273a3a726567636c617373293b0a0044000000414c544552205441424c45207075626c69632e6f617574685f6170706c696361;
0x74696f6e7320414c54455220434f4c554d4e2069642044524f502044454641554c543b0a010100000000060000007075626c6963010100000001010000000008;
0x000000706f737467726573000500000066616c7365000300000032373500030000003237340101000000000000000000be0e0000000000000000040000003236;
0x303400050000003137343731000f0000006f617574685f6e6f6e636573206964000700000044454641554c5400020000000072000000414c544552205441424c;
0x45204f4e4c59207075626c69632e6f617574685f6e6f6e63657320414c54455220434f4c554d4e206964205345542044454641554c54206e65787476616c2827;
0x7075626c69632e6f617574685f6e6f6e6365735f69645f736571273a3a726567636c617373293b0a003e000000414c544552205441424c45207075626c69632e;
0x6f617574685f6e6f6e63657320414c54455220434f4c554d4e2069642044524f502044454641554c543b0a010100000000060000007075626c69630101000000;
0x01010000000008000000706f737467726573000500000066616c7365000300000032373700030000003237360101000000000000000000bf0e00000000000000;
0x00040000003236303400050000003137343732000f0000006f617574685f746f6b656e73206964000700000044454641554c5400020000000072000000414c54;
0x4552205441424c45204f4e4c59207075626c69632e6f617574685f746f6b656e7320414c54455220434f4c554d4e206964205345542044454641554c54206e65;
0x787476616c28277075626c69632e6f617574685f746f6b656e735f69645f736571273a3a726567636c617373293b0a003e000000414c544552205441424c4520;
0x7075626c69632e6f617574685f746f6b656e7320414c54455220434f4c554d4e2069642044524f502044454641554c543b0a010100000000060000007075626c;
0x6963010100000001010000000008000000706f737467726573000500000066616c7365000300000032373900030000003237380101000000000000000000c70e;
0x0000000000000000040000003236303400050000003137343733000d000000726564616374696f6e73206964000700000044454641554c540002000000006e00;
0x0000414c544552205441424c45204f4e4c59207075626c69632e726564616374696f6e7320414c54455220434f4c554d4e206964205345542044454641554c54;
0x206e65787476616c28277075626c69632e726564616374696f6e735f69645f736571273a3a726567636c617373293b0a003c000000414c544552205441424c45;
0x207075626c69632e726564616374696f6e7320414c54455220434f4c554d4e2069642044524f502044454641554c543b0a010100000000060000007075626c69;
0x63010100000001010000000008000000706f737467726573000500000066616c7365000300000032383100030000003238300101000000000000000000ce0e00;
0x00000000000000040000003236303400050000003137343734000a0000007265706f727473206964000700000044454641554c5400020000000068000000414c;
0x544552205441424c45204f4e4c59207075626c69632e7265706f72747320414c54455220434f4c554d4e206964205345542044454641554c54206e6578747661;
0x6c28277075626c69632e7265706f7274735f69645f736571273a3a726567636c617373293b0a0039000000414c544552205441424c45207075626c69632e7265;
0x706f72747320414c54455220434f4c554d4e2069642044524f502044454641554c543b0a010100000000060000007075626c6963010100000001010000000008;
0x000000706f737467726573000500000066616c7365000300000032383600030000003238350101000000000000000000cf0e0000000000000000040000003236;
0x303400050000003137343735000e000000757365725f626c6f636b73206964000700000044454641554c5400020000000070000000414c544552205441424c45;
0x204f4e4c59207075626c69632e757365725f626c6f636b7320414c54455220434f4c554d4e206964205345542044454641554c54206e65787476616c28277075;
0x626c69632e757365725f626c6f636b735f69645f736571273a3a726567636c617373293b0a003d000000414c544552205441424c45207075626c69632e757365;
0x725f626c6f636b7320414c54455220434f4c554d4e2069642044524f502044454641554c543b0a010100000000060000007075626c6963010100000001010000;
0x000008000000706f737467726573000500000066616c7365000300000032383900030000003238380101000000000000000000d20e0000000000000000040000;
0x003236303400050000003137343736000d000000757365725f726f6c6573206964000700000044454641554c540002000000006e000000414c54455220544142;
0x4c45204f4e4c59207075626c69632e757365725f726f6c657320414c54455220434f4c554d4e206964205345542044454641554c54206e65787476616c282770;
0x75626c69632e757365725f726f6c65735f69645f736571273a3a726567636c617373293b0a003c000000414c544552205441424c45207075626c69632e757365;
0x725f726f6c657320414c54455220434f4c554d4e2069642044524f502044454641554c543b0a010100000000060000007075626c696301010000000101000000;
0x0008000000706f737467726573000500000066616c7365000300000032393200030000003239310101000000000000000000d30e000000000000000004000000;
0x3236303400050000003137343737000e000000757365725f746f6b656e73206964000700000044454641554c5400020000000070000000414c54455220544142;
0x4c45204f4e4c59207075626c69632e757365725f746f6b656e7320414c54455220434f4c554d4e206964205345542044454641554c54206e65787476616c2827;
0x7075626c69632e757365725f746f6b656e735f69645f736571273a3a726567636c617373293b0a003d000000414c544552205441424c45207075626c69632e75;
0x7365725f746f6b656e7320414c54455220434f4c554d4e2069642044524f502044454641554c543b0a010100000000060000007075626c696301010000000101;
0x0000000008000000706f737467726573000500000066616c7365000300000032393400030000003239330101000000000000000000d40e000000000000000004;
0x000000323630340005000000313734373800080000007573657273206964000700000044454641554c5400020000000064000000414c544552205441424c4520;
0x4f4e4c59207075626c69632e757365727320414c54455220434f4c554d4e206964205345542044454641554c54206e65787476616c28277075626c69632e7573;
0x6572735f69645f736571273a3a726567636c617373293b0a0037000000414c544552205441424c45207075626c69632e757365727320414c54455220434f4c55;
0x4d4e2069642044524f502044454641554c543b0a010100000000060000007075626c6963010100000001010000000008000000706f7374677265730005000000;
0x66616c73650003000000323936000300000032393501010000000000000000007210000000010000000001000000300005000000313731313100040000006163;
0x6c73000a0000005441424c452044415441000300000001010000000101000000003d000000434f5059207075626c69632e61636c73202869642c206164647265;
0x73732c206b2c20762c20646f6d61696e2c206d78292046524f4d20737464696e3b0a00060000007075626c6963010100000001010000000008000000706f7374;
0x67726573000500000066616c7365000300000032313501010000000008000000343231302e646174007410000000010000000001000000300005000000313731;
0x3137001a0000006163746976655f73746f726167655f6174746163686d656e7473000a0000005441424c45204441544100030000000101000000010100000000;
0x6b000000434f5059207075626c69632e6163746976655f73746f726167655f6174746163686d656e7473202869642c206e616d652c207265636f72645f747970;
0x652c207265636f72645f69642c20626c6f625f69642c20637265617465645f6174292046524f4d20737464696e3b0a00060000007075626c6963010100000001;
0x010000000008000000706f737467726573000500000066616c7365000300000032313701010000000008000000343231322e6461740076100000000100000000;
0x01000000300005000000313731323300140000006163746976655f73746f726167655f626c6f6273000a0000005441424c452044415441000300000001010000;
0x0001010000000088000000434f5059207075626c69632e6163746976655f73746f726167655f626c6f6273202869642c206b65792c2066696c656e616d652c20;
0x636f6e74656e745f747970652c206d657461646174612c20627974655f73697a652c20636865636b73756d2c20637265617465645f61742c2073657276696365;
0x5f6e616d65292046524f4d20737464696e3b0a00060000007075626c6963010100000001010000000008000000706f737467726573000500000066616c736500;
0x0300000032313901010000000008000000343231342e6461740078100000000100000000010000003000050000003137313239001e0000006163746976655f73;
0x746f726167655f76617269616e745f7265636f726473000a0000005441424c4520444154410003000000010100000001010000000057000000434f5059207075;
0x626c69632e6163746976655f73746f726167655f76617269616e745f7265636f726473202869642c20626c6f625f69642c20766172696174696f6e5f64696765;
0x7374292046524f4d20737464696e3b0a00060000007075626c6963010100000001010000000008000000706f737467726573000500000066616c736500030000;
0x0032323101010000000008000000343231362e646174007a100000000100000000010000003000050000003137313335001400000061725f696e7465726e616c;
0x5f6d65746164617461000a0000005441424c4520444154410003000000010100000001010000000052000000434f5059207075626c69632e61725f696e746572;
0x6e616c5f6d6574616461746120286b65792c2076616c75652c20637265617465645f61742c20757064617465645f6174292046524f4d20737464696e3b0a0006;
0x0000007075626c6963010100000001010000000008000000706f737467726573000500000066616c736500030000003232330101000000000800000034323138;
0x2e646174007b10000000010000000001000000300005000000313731343000120000006368616e67657365745f636f6d6d656e7473000a0000005441424c4520;
0x444154410003000000010100000001010000000064000000434f5059207075626c69632e6368616e67657365745f636f6d6d656e7473202869642c206368616e;
0x67657365745f69642c20617574686f725f69642c20626f64792c20637265617465645f61742c2076697369626c65292046524f4d20737464696e3b0a00060000;
0x007075626c6963010100000001010000000008000000706f737467726573000500000066616c7365000300000032323401010000000008000000343231392e64;
0x6174007d100000000100000000010000003000050000003137313436000e0000006368616e67657365745f74616773000a0000005441424c4520444154410003;
0x00000001010000000101000000003c000000434f5059207075626c69632e6368616e67657365745f7461677320286368616e67657365745f69642c206b2c2076;
0x292046524f4d20737464696e3b0a00060000007075626c6963010100000001010000000008000000706f737467726573000500000066616c7365000300000032;
0x323601010000000008000000343232312e646174007e100000000100000000010000003000050000003137313533000a0000006368616e676573657473000a00;
0x00005441424c4520444154410003000000010100000001010000000079000000434f5059207075626c69632e6368616e676573657473202869642c2075736572;
0x5f69642c20637265617465645f61742c206d696e5f6c61742c206d61785f6c61742c206d696e5f6c6f6e2c206d61785f6c6f6e2c20636c6f7365645f61742c20;
0x6e756d5f6368616e676573292046524f4d20737464696e3b0a00060000007075626c6963010100000001010000000008000000706f7374677265730005000000;
0x66616c7365000300000032323701010000000008000000343232322e646174008010000000010000000001000000300005000000313731353800160000006368;
0x616e6765736574735f7375627363726962657273000a0000005441424c452044415441000300000001010000000101000000004d000000434f5059207075626c;
0x69632e6368616e6765736574735f73756273637269626572732028737562736372696265725f69642c206368616e67657365745f6964292046524f4d20737464;
0x696e3b0a00060000007075626c6963010100000001010000000008000000706f737467726573000500000066616c736500030000003232390101000000000800;
0x0000343232342e64617400811000000001000000000100000030000500000031373136310013000000636c69656e745f6170706c69636174696f6e73000a0000;
0x005441424c4520444154410003000000010100000001010000000002010000434f5059207075626c69632e636c69656e745f6170706c69636174696f6e732028;
0x69642c206e616d652c2075726c2c20737570706f72745f75726c2c2063616c6c6261636b5f75726c2c206b65792c207365637265742c20757365725f69642c20;
0x637265617465645f61742c20757064617465645f61742c20616c6c6f775f726561645f70726566732c20616c6c6f775f77726974655f70726566732c20616c6c;
0x6f775f77726974655f64696172792c20616c6c6f775f77726974655f6170692c20616c6c6f775f726561645f6770782c20616c6c6f775f77726974655f677078;
0x2c20616c6c6f775f77726974655f6e6f746573292046524f4d20737464696e3b0a00060000007075626c6963010100000001010000000008000000706f737467;
0x726573000500000066616c7365000300000032333001010000000008000000343232352e64617400831000000001000000000100000030000500000031373137;
0x34001100000063757272656e745f6e6f64655f74616773000a0000005441424c452044415441000300000001010000000101000000003a000000434f50592070;
0x75626c69632e63757272656e745f6e6f64655f7461677320286e6f64655f69642c206b2c2076292046524f4d20737464696e3b0a00060000007075626c696301;
0x0100000001010000000008000000706f737467726573000500000066616c7365000300000032333201010000000008000000343232372e646174008410000000;
0x0100000000010000003000050000003137313831000d00000063757272656e745f6e6f646573000a0000005441424c4520444154410003000000010100000001;
0x010000000073000000434f5059207075626c69632e63757272656e745f6e6f646573202869642c206c617469747564652c206c6f6e6769747564652c20636861;
0x6e67657365745f69642c2076697369626c652c202274696d657374616d70222c2074696c652c2076657273696f6e292046524f4d20737464696e3b0a00060000;
0x007075626c6963010100000001010000000008000000706f737467726573000500000066616c7365000300000032333301010000000008000000343232382e64;
0x61740086100000000100000000010000003000050000003137313835001800000063757272656e745f72656c6174696f6e5f6d656d62657273000a0000005441;
0x424c4520444154410003000000010100000001010000000071000000434f5059207075626c69632e63757272656e745f72656c6174696f6e5f6d656d62657273;
0x202872656c6174696f6e5f69642c206d656d6265725f747970652c206d656d6265725f69642c206d656d6265725f726f6c652c2073657175656e63655f696429;
0x2046524f4d20737464696e3b0a00060000007075626c6963010100000001010000000008000000706f737467726573000500000066616c736500030000003233;
0x3501010000000008000000343233302e6461740087100000000100000000010000003000050000003137313931001500000063757272656e745f72656c617469;
0x6f6e5f74616773000a0000005441424c4520444154410003000000010100000001010000000042000000434f5059207075626c69632e63757272656e745f7265;
0x6c6174696f6e5f74616773202872656c6174696f6e5f69642c206b2c2076292046524f4d20737464696e3b0a00060000007075626c6963010100000001010000;
0x000008000000706f737467726573000500000066616c7365000300000032333601010000000008000000343233312e6461740088100000000100000000010000;
0x003000050000003137313938001100000063757272656e745f72656c6174696f6e73000a0000005441424c452044415441000300000001010000000101000000;
0x005c000000434f5059207075626c69632e63757272656e745f72656c6174696f6e73202869642c206368616e67657365745f69642c202274696d657374616d70;
0x222c2076697369626c652c2076657273696f6e292046524f4d20737464696e3b0a00060000007075626c6963010100000001010000000008000000706f737467;
0x726573000500000066616c7365000300000032333701010000000008000000343233322e646174008a1000000001000000000100000030000500000031373230;
0x32001100000063757272656e745f7761795f6e6f646573000a0000005441424c4520444154410003000000010100000001010000000049000000434f50592070;
0x75626c69632e63757272656e745f7761795f6e6f64657320287761795f69642c206e6f64655f69642c2073657175656e63655f6964292046524f4d2073746469;
0x6e3b0a00060000007075626c6963010100000001010000000008000000706f737467726573000500000066616c73650003000000323339010100000000080000;
0x00343233342e646174008b100000000100000000010000003000050000003137323035001000000063757272656e745f7761795f74616773000a000000544142;
0x4c4520444154410003000000010100000001010000000038000000434f5059207075626c69632e63757272656e745f7761795f7461677320287761795f69642c;
0x206b2c2076292046524f4d20737464696e3b0a00060000007075626c6963010100000001010000000008000000706f737467726573000500000066616c736500;
0x0300000032343001010000000008000000343233352e646174008c100000000100000000010000003000050000003137323132000c00000063757272656e745f;
0x77617973000a0000005441424c4520444154410003000000010100000001010000000057000000434f5059207075626c69632e63757272656e745f7761797320;
0x2869642c206368616e67657365745f69642c202274696d657374616d70222c2076697369626c652c2076657273696f6e292046524f4d20737464696e3b0a0006;
0x0000007075626c6963010100000001010000000008000000706f737467726573000500000066616c736500030000003234310101000000000800000034323336;
0x2e646174008e100000000100000000010000003000050000003137323136000c00000064656c617965645f6a6f6273000a0000005441424c4520444154410003;
0x00000001010000000101000000009b000000434f5059207075626c69632e64656c617965645f6a6f6273202869642c207072696f726974792c20617474656d70;
0x74732c2068616e646c65722c206c6173745f6572726f722c2072756e5f61742c206c6f636b65645f61742c206661696c65645f61742c206c6f636b65645f6279;
0x2c2071756575652c20637265617465645f61742c20757064617465645f6174292046524f4d20737464696e3b0a00060000007075626c69630101000000010100;
0x00000008000000706f737467726573000500000066616c7365000300000032343301010000000008000000343233382e64617400901000000001000000000100;
0x00003000050000003137323234000e00000064696172795f636f6d6d656e7473000a0000005441424c4520444154410003000000010100000001010000000079;
0x000000434f5059207075626c69632e64696172795f636f6d6d656e7473202869642c2064696172795f656e7472795f69642c20757365725f69642c20626f6479;
0x2c20637265617465645f61742c20757064617465645f61742c2076697369626c652c20626f64795f666f726d6174292046524f4d20737464696e3b0a00060000;
0x007075626c6963010100000001010000000008000000706f737467726573000500000066616c7365000300000032343501010000000008000000343234302e64;
0x61740092100000000100000000010000003000050000003137323332000d00000064696172795f656e7472696573000a0000005441424c452044415441000300;
0x0000010100000001010000000093000000434f5059207075626c69632e64696172795f656e7472696573202869642c20757365725f69642c207469746c652c20;
0x626f64792c20637265617465645f61742c20757064617465645f61742c206c617469747564652c206c6f6e6769747564652c206c616e67756167655f636f6465;
0x2c2076697369626c652c20626f64795f666f726d6174292046524f4d20737464696e3b0a00060000007075626c6963010100000001010000000008000000706f;
0x737467726573000500000066616c7365000300000032343701010000000008000000343234322e64617400941000000001000000000100000030000500000031;
0x37323431001900000064696172795f656e7472795f737562736372697074696f6e73000a0000005441424c452044415441000300000001010000000101000000;
0x004c000000434f5059207075626c69632e64696172795f656e7472795f737562736372697074696f6e732028757365725f69642c2064696172795f656e747279;
0x5f6964292046524f4d20737464696e3b0a00060000007075626c6963010100000001010000000008000000706f737467726573000500000066616c7365000300;
0x000032343901010000000008000000343234342e64617400951000000001000000000100000030000500000031373234340007000000667269656e6473000a00;
0x00005441424c452044415441000300000001010000000101000000004a000000434f5059207075626c69632e667269656e6473202869642c20757365725f6964;
0x2c20667269656e645f757365725f69642c20637265617465645f6174292046524f4d20737464696e3b0a00060000007075626c69630101000000010100000000;
0x08000000706f737467726573000500000066616c7365000300000032353001010000000008000000343234352e64617400971000000001000000000100000030;
0x00050000003137323438000a0000006770735f706f696e7473000a0000005441424c4520444154410003000000010100000001010000000067000000434f5059;
0x207075626c69632e6770735f706f696e74732028616c7469747564652c20747261636b69642c206c617469747564652c206c6f6e6769747564652c206770785f;
0x69642c202274696d657374616d70222c2074696c65292046524f4d20737464696e3b0a00060000007075626c6963010100000001010000000008000000706f73;
0x7467726573000500000066616c7365000300000032353201010000000008000000343234372e6461740098100000000100000000010000003000050000003137;
0x323531000d0000006770785f66696c655f74616773000a0000005441424c4520444154410003000000010100000001010000000038000000434f505920707562;
0x6c69632e6770785f66696c655f7461677320286770785f69642c207461672c206964292046524f4d20737464696e3b0a00060000007075626c69630101000000;
0x01010000000008000000706f737467726573000500000066616c7365000300000032353301010000000008000000343234382e646174009a1000000001000000;
0x0001000000300005000000313732353700090000006770785f66696c6573000a0000005441424c452044415441000300000001010000000101000000008a0000;
0x00434f5059207075626c69632e6770785f66696c6573202869642c20757365725f69642c2076697369626c652c206e616d652c2073697a652c206c6174697475].
Definition toc_words_5 : list Z := [
0x64652c206c6f6e6769747564652c202274696d657374616d70222c206465736372697074696f6e2c20696e7365727465642c207669736962696c697479292046;
0x524f4d20737464696e3b0a00060000007075626c6963010100000001010000000008000000706f737467726573000500000066616c7365000300000032353501;
0x010000000008000000343235302e646174009c100000000100000000010000003000050000003137323637000e00000069737375655f636f6d6d656e7473000a;
0x0000005441424c452044415441000300000001010000000101000000005d000000434f5059207075626c69632e69737375655f636f6d6d656e7473202869642c;
0x2069737375655f69642c20757365725f69642c20626f64792c20637265617465645f61742c20757064617465645f6174292046524f4d20737464696e3b0a0006;
0x0000007075626c6963010100000001010000000008000000706f737467726573000500000066616c736500030000003235370101000000000800000034323532;
0x2e646174009e1000000001000000000100000030000500000031373237330006000000697373756573000a0000005441424c4520444154410003000000010100;
0x0000010100000000ba000000434f5059207075626c69632e697373756573202869642c207265706f727461626c655f747970652c207265706f727461626c655f;
0x69642c207265706f727465645f757365725f69642c207374617475732c2061737369676e65645f726f6c652c207265736f6c7665645f61742c207265736f6c76;
0x65645f62792c20757064617465645f62792c207265706f7274735f636f756e742c20637265617465645f61742c20757064617465645f6174292046524f4d2073;
0x7464696e3b0a00060000007075626c6963010100000001010000000008000000706f737467726573000500000066616c73650003000000323539010100000000;
0x08000000343235342e64617400a010000000010000000001000000300005000000313732383100090000006c616e677561676573000a0000005441424c452044;
0x4154410003000000010100000001010000000044000000434f5059207075626c69632e6c616e6775616765732028636f64652c20656e676c6973685f6e616d65;
0x2c206e61746976655f6e616d65292046524f4d20737464696e3b0a00060000007075626c6963010100000001010000000008000000706f737467726573000500;
0x000066616c7365000300000032363101010000000008000000343235362e64617400a11000000001000000000100000030000500000031373238360008000000;
0x6d65737361676573000a0000005441424c4520444154410003000000010100000001010000000095000000434f5059207075626c69632e6d6573736167657320;
0x2869642c2066726f6d5f757365725f69642c207469746c652c20626f64792c2073656e745f6f6e2c206d6573736167655f726561642c20746f5f757365725f69;
0x642c20746f5f757365725f76697369626c652c2066726f6d5f757365725f76697369626c652c20626f64795f666f726d6174292046524f4d20737464696e3b0a;
0x00060000007075626c6963010100000001010000000008000000706f737467726573000500000066616c73650003000000323632010100000000080000003432;
0x35372e64617400a310000000010000000001000000300005000000313732393600090000006e6f64655f74616773000a0000005441424c452044415441000300;
0x000001010000000101000000003b000000434f5059207075626c69632e6e6f64655f7461677320286e6f64655f69642c2076657273696f6e2c206b2c20762920;
0x46524f4d20737464696e3b0a00060000007075626c6963010100000001010000000008000000706f737467726573000500000066616c73650003000000323634;
0x01010000000008000000343235392e64617400a410000000010000000001000000300005000000313733303300050000006e6f646573000a0000005441424c45;
0x2044415441000300000001010000000101000000007e000000434f5059207075626c69632e6e6f64657320286e6f64655f69642c206c617469747564652c206c;
0x6f6e6769747564652c206368616e67657365745f69642c2076697369626c652c202274696d657374616d70222c2074696c652c2076657273696f6e2c20726564;
0x616374696f6e5f6964292046524f4d20737464696e3b0a00060000007075626c6963010100000001010000000008000000706f73746772657300050000006661;
0x6c7365000300000032363501010000000008000000343236302e64617400a5100000000100000000010000003000050000003137333036000d0000006e6f7465;
0x5f636f6d6d656e7473000a0000005441424c452044415441000300000001010000000101000000006c000000434f5059207075626c69632e6e6f74655f636f6d;
0x6d656e7473202869642c206e6f74655f69642c2076697369626c652c20637265617465645f61742c20617574686f725f69702c20617574686f725f69642c2062;
0x6f64792c206576656e74292046524f4d20737464696e3b0a00060000007075626c6963010100000001010000000008000000706f737467726573000500000066;
0x616c7365000300000032363601010000000008000000343236312e64617400a710000000010000000001000000300005000000313733313200050000006e6f74;
0x6573000a0000005441424c4520444154410003000000010100000001010000000069000000434f5059207075626c69632e6e6f746573202869642c206c617469;
0x747564652c206c6f6e6769747564652c2074696c652c20757064617465645f61742c20637265617465645f61742c207374617475732c20636c6f7365645f6174;
0x292046524f4d20737464696e3b0a00060000007075626c6963010100000001010000000008000000706f737467726573000500000066616c7365000300000032;
0x363801010000000008000000343236332e64617400a910000000010000000001000000300005000000313733313600130000006f617574685f6163636573735f;
0x6772616e7473000a0000005441424c45204441544100030000000101000000010100000000bc000000434f5059207075626c69632e6f617574685f6163636573;
0x735f6772616e7473202869642c207265736f757263655f6f776e65725f69642c206170706c69636174696f6e5f69642c20746f6b656e2c20657870697265735f;
0x696e2c2072656469726563745f7572692c20637265617465645f61742c207265766f6b65645f61742c2073636f7065732c20636f64655f6368616c6c656e6765;
0x2c20636f64655f6368616c6c656e67655f6d6574686f64292046524f4d20737464696e3b0a00060000007075626c696301010000000101000000000800000070;
0x6f737467726573000500000066616c7365000300000032373001010000000008000000343236352e64617400ab10000000010000000001000000300005000000;
0x313733323300130000006f617574685f6163636573735f746f6b656e73000a0000005441424c45204441544100030000000101000000010100000000ae000000;
0x434f5059207075626c69632e6f617574685f6163636573735f746f6b656e73202869642c207265736f757263655f6f776e65725f69642c206170706c69636174;
0x696f6e5f69642c20746f6b656e2c20726566726573685f746f6b656e2c20657870697265735f696e2c207265766f6b65645f61742c20637265617465645f6174;
0x2c2073636f7065732c2070726576696f75735f726566726573685f746f6b656e292046524f4d20737464696e3b0a00060000007075626c696301010000000101;
0x0000000008000000706f737467726573000500000066616c7365000300000032373201010000000008000000343236372e64617400ad10000000010000000001;
0x000000300005000000313733333000120000006f617574685f6170706c69636174696f6e73000a0000005441424c452044415441000300000001010000000101;
0x0000000095000000434f5059207075626c69632e6f617574685f6170706c69636174696f6e73202869642c206f776e65725f747970652c206f776e65725f6964;
0x2c206e616d652c207569642c207365637265742c2072656469726563745f7572692c2073636f7065732c20636f6e666964656e7469616c2c2063726561746564;
0x5f61742c20757064617465645f6174292046524f4d20737464696e3b0a00060000007075626c6963010100000001010000000008000000706f73746772657300;
0x0500000066616c7365000300000032373401010000000008000000343236392e64617400af100000000100000000010000003000050000003137333338000c00;
0x00006f617574685f6e6f6e636573000a0000005441424c4520444154410003000000010100000001010000000056000000434f5059207075626c69632e6f6175;
0x74685f6e6f6e636573202869642c206e6f6e63652c202274696d657374616d70222c20637265617465645f61742c20757064617465645f6174292046524f4d20;
0x737464696e3b0a00060000007075626c6963010100000001010000000008000000706f737467726573000500000066616c736500030000003237360101000000;
0x0008000000343237312e64617400b1100000000100000000010000003000050000003137333434000c0000006f617574685f746f6b656e73000a000000544142;
0x4c452044415441000300000001010000000101000000003c010000434f5059207075626c69632e6f617574685f746f6b656e73202869642c20757365725f6964;
0x2c20747970652c20636c69656e745f6170706c69636174696f6e5f69642c20746f6b656e2c207365637265742c20617574686f72697a65645f61742c20696e76;
0x616c6964617465645f61742c20637265617465645f61742c20757064617465645f61742c20616c6c6f775f726561645f70726566732c20616c6c6f775f777269;
0x74655f70726566732c20616c6c6f775f77726974655f64696172792c20616c6c6f775f77726974655f6170692c20616c6c6f775f726561645f6770782c20616c;
0x6c6f775f77726974655f6770782c2063616c6c6261636b5f75726c2c2076657269666965722c2073636f70652c2076616c69645f746f2c20616c6c6f775f7772;
0x6974655f6e6f746573292046524f4d20737464696e3b0a00060000007075626c6963010100000001010000000008000000706f73746772657300050000006661;
0x6c7365000300000032373801010000000008000000343237332e64617400b3100000000100000000010000003000050000003137333537000a00000072656461;
0x6374696f6e73000a0000005441424c4520444154410003000000010100000001010000000071000000434f5059207075626c69632e726564616374696f6e7320;
0x2869642c207469746c652c206465736372697074696f6e2c20637265617465645f61742c20757064617465645f61742c20757365725f69642c20646573637269;
0x7074696f6e5f666f726d6174292046524f4d20737464696e3b0a00060000007075626c6963010100000001010000000008000000706f73746772657300050000;
0x0066616c7365000300000032383001010000000008000000343237352e64617400b5100000000100000000010000003000050000003137333634001000000072;
0x656c6174696f6e5f6d656d62657273000a0000005441424c4520444154410003000000010100000001010000000072000000434f5059207075626c69632e7265;
0x6c6174696f6e5f6d656d62657273202872656c6174696f6e5f69642c206d656d6265725f747970652c206d656d6265725f69642c206d656d6265725f726f6c65;
0x2c2076657273696f6e2c2073657175656e63655f6964292046524f4d20737464696e3b0a00060000007075626c6963010100000001010000000008000000706f;
0x737467726573000500000066616c7365000300000032383201010000000008000000343237372e64617400b61000000001000000000100000030000500000031;
0x37333731000d00000072656c6174696f6e5f74616773000a0000005441424c4520444154410003000000010100000001010000000043000000434f5059207075;
0x626c69632e72656c6174696f6e5f74616773202872656c6174696f6e5f69642c206b2c20762c2076657273696f6e292046524f4d20737464696e3b0a00060000;
0x007075626c6963010100000001010000000008000000706f737467726573000500000066616c7365000300000032383301010000000008000000343237382e64;
0x617400b7100000000100000000010000003000050000003137333738000900000072656c6174696f6e73000a0000005441424c45204441544100030000000101;
0x0000000101000000006b000000434f5059207075626c69632e72656c6174696f6e73202872656c6174696f6e5f69642c206368616e67657365745f69642c2022;
0x74696d657374616d70222c2076657273696f6e2c2076697369626c652c20726564616374696f6e5f6964292046524f4d20737464696e3b0a0006000000707562;
0x6c6963010100000001010000000008000000706f737467726573000500000066616c7365000300000032383401010000000008000000343237392e64617400b8;
0x10000000010000000001000000300005000000313733383200070000007265706f727473000a0000005441424c45204441544100030000000101000000010100;
0x00000063000000434f5059207075626c69632e7265706f727473202869642c2069737375655f69642c20757365725f69642c2064657461696c732c2063617465;
0x676f72792c20637265617465645f61742c20757064617465645f6174292046524f4d20737464696e3b0a00060000007075626c69630101000000010100000000;
0x08000000706f737467726573000500000066616c7365000300000032383501010000000008000000343238302e64617400ba1000000001000000000100000030;
0x000500000031373338380011000000736368656d615f6d6967726174696f6e73000a0000005441424c4520444154410003000000010100000001010000000034;
0x000000434f5059207075626c69632e736368656d615f6d6967726174696f6e73202876657273696f6e292046524f4d20737464696e3b0a00060000007075626c;
0x6963010100000001010000000008000000706f737467726573000500000066616c7365000300000032383701010000000008000000343238322e64617400bb10;
0x0000000100000000010000003000050000003137333933000b000000757365725f626c6f636b73000a0000005441424c45204441544100030000000101000000;
0x0101000000008e000000434f5059207075626c69632e757365725f626c6f636b73202869642c20757365725f69642c2063726561746f725f69642c2072656173;
0x6f6e2c20656e64735f61742c206e656564735f766965772c207265766f6b65725f69642c20637265617465645f61742c20757064617465645f61742c20726561;
0x736f6e5f666f726d6174292046524f4d20737464696e3b0a00060000007075626c6963010100000001010000000008000000706f737467726573000500000066;
0x616c7365000300000032383801010000000008000000343238332e64617400bd1000000001000000000100000030000500000031373430310010000000757365;
0x725f707265666572656e636573000a0000005441424c4520444154410003000000010100000001010000000039000000434f5059207075626c69632e75736572;
0x5f707265666572656e6365732028757365725f69642c206b2c2076292046524f4d20737464696e3b0a00060000007075626c6963010100000001010000000008;
0x000000706f737467726573000500000066616c7365000300000032393001010000000008000000343238352e64617400be100000000100000000010000003000;
0x050000003137343036000a000000757365725f726f6c6573000a0000005441424c452044415441000300000001010000000101000000005b000000434f505920;
0x7075626c69632e757365725f726f6c6573202869642c20757365725f69642c20726f6c652c20637265617465645f61742c20757064617465645f61742c206772;
0x616e7465725f6964292046524f4d20737464696e3b0a00060000007075626c6963010100000001010000000008000000706f737467726573000500000066616c;
0x7365000300000032393101010000000008000000343238362e64617400c0100000000100000000010000003000050000003137343130000b000000757365725f;
0x746f6b656e73000a0000005441424c452044415441000300000001010000000101000000004a000000434f5059207075626c69632e757365725f746f6b656e73;
0x202869642c20757365725f69642c20746f6b656e2c206578706972792c2072656665726572292046524f4d20737464696e3b0a00060000007075626c69630101;
0x00000001010000000008000000706f737467726573000500000066616c7365000300000032393301010000000008000000343238382e64617400c21000000001;
0x0000000001000000300005000000313734313600050000007573657273000a0000005441424c4520444154410003000000010100000001010000000095010000;
0x434f5059207075626c69632e75736572732028656d61696c2c2069642c20706173735f63727970742c206372656174696f6e5f74696d652c20646973706c6179;
0x5f6e616d652c20646174615f7075626c69632c206465736372697074696f6e2c20686f6d655f6c61742c20686f6d655f6c6f6e2c20686f6d655f7a6f6f6d2c20;
0x706173735f73616c742c20656d61696c5f76616c69642c206e65775f656d61696c2c206372656174696f6e5f69702c206c616e6775616765732c207374617475;
0x732c207465726d735f6167726565642c20636f6e73696465725f70642c20617574685f7569642c207072656665727265645f656469746f722c207465726d735f;
0x7365656e2c206465736372697074696f6e5f666f726d61742c206368616e6765736574735f636f756e742c207472616365735f636f756e742c2064696172795f;
0x656e74726965735f636f756e742c20696d6167655f7573655f67726176617461722c20617574685f70726f76696465722c20686f6d655f74696c652c20746f75;
0x5f616772656564292046524f4d20737464696e3b0a00060000007075626c6963010100000001010000000008000000706f737467726573000500000066616c73;
0x65000300000032393501010000000008000000343239302e64617400c410000000010000000001000000300005000000313734333500090000007761795f6e6f;
0x646573000a0000005441424c452044415441000300000001010000000101000000004a000000434f5059207075626c69632e7761795f6e6f6465732028776179;
0x5f69642c206e6f64655f69642c2076657273696f6e2c2073657175656e63655f6964292046524f4d20737464696e3b0a00060000007075626c69630101000000;
0x01010000000008000000706f737467726573000500000066616c7365000300000032393701010000000008000000343239322e64617400c51000000001000000;
0x0001000000300005000000313734333800080000007761795f74616773000a0000005441424c4520444154410003000000010100000001010000000039000000;
0x434f5059207075626c69632e7761795f7461677320287761795f69642c206b2c20762c2076657273696f6e292046524f4d20737464696e3b0a00060000007075;
0x626c6963010100000001010000000008000000706f737467726573000500000066616c7365000300000032393801010000000008000000343239332e64617400;
0xc6100000000100000000010000003000050000003137343433000400000077617973000a0000005441424c452044415441000300000001010000000101000000;
0x0061000000434f5059207075626c69632e7761797320287761795f69642c206368616e67657365745f69642c202274696d657374616d70222c2076657273696f;
0x6e2c2076697369626c652c20726564616374696f6e5f6964292046524f4d20737464696e3b0a00060000007075626c6963010100000001010000000008000000;
0x706f737467726573000500000066616c7365000300000032393901010000000008000000343239342e64617400ef100000000000000000010000003000010000;
0x0030000b00000061636c735f69645f736571000c00000053455155454e4345205345540003000000003a00000053454c4543542070675f636174616c6f672e73;
0x657476616c28277075626c69632e61636c735f69645f736571272c20312c2066616c7365293b0a0101000000010100000000060000007075626c696301010000;
0x0001010000000008000000706f737467726573000500000066616c736500030000003231360101000000000000000000f0100000000000000000010000003000;
0x010000003000210000006163746976655f73746f726167655f6174746163686d656e74735f69645f736571000c00000053455155454e43452053455400030000;
0x00005000000053454c4543542070675f636174616c6f672e73657476616c28277075626c69632e6163746976655f73746f726167655f6174746163686d656e74;
0x735f69645f736571272c20312c2066616c7365293b0a0101000000010100000000060000007075626c6963010100000001010000000008000000706f73746772;
0x6573000500000066616c736500030000003231380101000000000000000000f11000000000000000000100000030000100000030001b0000006163746976655f;
0x73746f726167655f626c6f62735f69645f736571000c00000053455155454e4345205345540003000000004a00000053454c4543542070675f636174616c6f67;
0x2e73657476616c28277075626c69632e6163746976655f73746f726167655f626c6f62735f69645f736571272c20312c2066616c7365293b0a01010000000101;
0x00000000060000007075626c6963010100000001010000000008000000706f737467726573000500000066616c73650003000000323230010100000000000000;
0x0000f2100000000000000000010000003000010000003000250000006163746976655f73746f726167655f76617269616e745f7265636f7264735f69645f7365;
0x71000c00000053455155454e4345205345540003000000005400000053454c4543542070675f636174616c6f672e73657476616c28277075626c69632e616374;
0x6976655f73746f726167655f76617269616e745f7265636f7264735f69645f736571272c20312c2066616c7365293b0a01010000000101000000000600000070;
0x75626c6963010100000001010000000008000000706f737467726573000500000066616c736500030000003232320101000000000000000000f3100000000000;
0x000000010000003000010000003000190000006368616e67657365745f636f6d6d656e74735f69645f736571000c00000053455155454e434520534554000300;
0x0000004800000053454c4543542070675f636174616c6f672e73657476616c28277075626c69632e6368616e67657365745f636f6d6d656e74735f69645f7365;
0x71272c20312c2066616c7365293b0a0101000000010100000000060000007075626c6963010100000001010000000008000000706f7374677265730005000000;
0x66616c736500030000003232350101000000000000000000f4100000000000000000010000003000010000003000110000006368616e6765736574735f69645f;
0x736571000c00000053455155454e4345205345540003000000004000000053454c4543542070675f636174616c6f672e73657476616c28277075626c69632e63;
0x68616e6765736574735f69645f736571272c20312c2066616c7365293b0a0101000000010100000000060000007075626c696301010000000101000000000800;
0x0000706f737467726573000500000066616c736500030000003232380101000000000000000000f51000000000000000000100000030000100000030001a0000;
0x00636c69656e745f6170706c69636174696f6e735f69645f736571000c00000053455155454e4345205345540003000000004900000053454c4543542070675f;
0x636174616c6f672e73657476616c28277075626c69632e636c69656e745f6170706c69636174696f6e735f69645f736571272c20312c2066616c7365293b0a01;
0x01000000010100000000060000007075626c6963010100000001010000000008000000706f737467726573000500000066616c73650003000000323331010100;
0x0000000000000000f61000000000000000000100000030000100000030001400000063757272656e745f6e6f6465735f69645f736571000c0000005345515545;
0x4e4345205345540003000000004300000053454c4543542070675f636174616c6f672e73657476616c28277075626c69632e63757272656e745f6e6f6465735f;
0x69645f736571272c20312c2066616c7365293b0a0101000000010100000000060000007075626c6963010100000001010000000008000000706f737467726573;
0x000500000066616c736500030000003233340101000000000000000000f71000000000000000000100000030000100000030001800000063757272656e745f72;
0x656c6174696f6e735f69645f736571000c00000053455155454e4345205345540003000000004700000053454c4543542070675f636174616c6f672e73657476;
0x616c28277075626c69632e63757272656e745f72656c6174696f6e735f69645f736571272c20312c2066616c7365293b0a010100000001010000000006000000;
0x7075626c6963010100000001010000000008000000706f737467726573000500000066616c736500030000003233380101000000000000000000f81000000000;
0x000000000100000030000100000030001300000063757272656e745f776179735f69645f736571000c00000053455155454e4345205345540003000000004200;
0x000053454c4543542070675f636174616c6f672e73657476616c28277075626c69632e63757272656e745f776179735f69645f736571272c20312c2066616c73;
0x65293b0a0101000000010100000000060000007075626c6963010100000001010000000008000000706f737467726573000500000066616c7365000300000032;
0x34320101000000000000000000f91000000000000000000100000030000100000030001300000064656c617965645f6a6f62735f69645f736571000c00000053;
0x455155454e4345205345540003000000004200000053454c4543542070675f636174616c6f672e73657476616c28277075626c69632e64656c617965645f6a6f;
0x62735f69645f736571272c20312c2066616c7365293b0a0101000000010100000000060000007075626c6963010100000001010000000008000000706f737467;
0x726573000500000066616c736500030000003234340101000000000000000000fa1000000000000000000100000030000100000030001500000064696172795f;
0x636f6d6d656e74735f69645f736571000c00000053455155454e4345205345540003000000004400000053454c4543542070675f636174616c6f672e73657476;
0x616c28277075626c69632e64696172795f636f6d6d656e74735f69645f736571272c20312c2066616c7365293b0a010100000001010000000006000000707562;
0x6c6963010100000001010000000008000000706f737467726573000500000066616c736500030000003234360101000000000000000000fb1000000000000000;
0x000100000030000100000030001400000064696172795f656e74726965735f69645f736571000c00000053455155454e43452053455400030000000043000000;
0x53454c4543542070675f636174616c6f672e73657476616c28277075626c69632e64696172795f656e74726965735f69645f736571272c20312c2066616c7365;
0x293b0a0101000000010100000000060000007075626c6963010100000001010000000008000000706f737467726573000500000066616c736500030000003234;
0x380101000000000000000000fc1000000000000000000100000030000100000030000e000000667269656e64735f69645f736571000c00000053455155454e43;
0x45205345540003000000003d00000053454c4543542070675f636174616c6f672e73657476616c28277075626c69632e667269656e64735f69645f736571272c;
0x20312c2066616c7365293b0a0101000000010100000000060000007075626c6963010100000001010000000008000000706f737467726573000500000066616c;
0x736500030000003235310101000000000000000000fd100000000000000000010000003000010000003000140000006770785f66696c655f746167735f69645f;
0x736571000c00000053455155454e4345205345540003000000004300000053454c4543542070675f636174616c6f672e73657476616c28277075626c69632e67;
0x70785f66696c655f746167735f69645f736571272c20312c2066616c7365293b0a0101000000010100000000060000007075626c696301010000000101000000;
0x0008000000706f737467726573000500000066616c736500030000003235340101000000000000000000fe100000000000000000010000003000010000003000;
0x100000006770785f66696c65735f69645f736571000c00000053455155454e4345205345540003000000003f00000053454c4543542070675f636174616c6f67;
0x2e73657476616c28277075626c69632e6770785f66696c65735f69645f736571272c20312c2066616c7365293b0a010100000001010000000006000000707562;
0x6c6963010100000001010000000008000000706f737467726573000500000066616c736500030000003235360101000000000000000000ff1000000000000000;
0x000100000030000100000030001500000069737375655f636f6d6d656e74735f69645f736571000c00000053455155454e434520534554000300000000440000;
0x0053454c4543542070675f636174616c6f672e73657476616c28277075626c69632e69737375655f636f6d6d656e74735f69645f736571272c20312c2066616c;
0x7365293b0a0101000000010100000000060000007075626c6963010100000001010000000008000000706f737467726573000500000066616c73650003000000;
0x3235380101000000000000000000001100000000000000000100000030000100000030000d0000006973737565735f69645f736571000c00000053455155454e;
0x4345205345540003000000003c00000053454c4543542070675f636174616c6f672e73657476616c28277075626c69632e6973737565735f69645f736571272c;
0x20312c2066616c7365293b0a0101000000010100000000060000007075626c6963010100000001010000000008000000706f737467726573000500000066616c;
0x736500030000003236300101000000000000000000011100000000000000000100000030000100000030000f0000006d657373616765735f69645f736571000c;
0x00000053455155454e4345205345540003000000003e00000053454c4543542070675f636174616c6f672e73657476616c28277075626c69632e6d6573736167;
0x65735f69645f736571272c20312c2066616c7365293b0a0101000000010100000000060000007075626c6963010100000001010000000008000000706f737467;
0x726573000500000066616c73650003000000323633010100000000000000000002110000000000000000010000003000010000003000140000006e6f74655f63;
0x6f6d6d656e74735f69645f736571000c00000053455155454e4345205345540003000000004300000053454c4543542070675f636174616c6f672e7365747661;
0x6c28277075626c69632e6e6f74655f636f6d6d656e74735f69645f736571272c20312c2066616c7365293b0a0101000000010100000000060000007075626c69;
0x63010100000001010000000008000000706f737467726573000500000066616c7365000300000032363701010000000000000000000311000000000000000001;
0x00000030000100000030000c0000006e6f7465735f69645f736571000c00000053455155454e4345205345540003000000003b00000053454c4543542070675f;
0x636174616c6f672e73657476616c28277075626c69632e6e6f7465735f69645f736571272c20312c2066616c7365293b0a010100000001010000000006000000;
0x7075626c6963010100000001010000000008000000706f737467726573000500000066616c736500030000003236390101000000000000000000041100000000;
0x000000000100000030000100000030001a0000006f617574685f6163636573735f6772616e74735f69645f736571000c00000053455155454e43452053455400;
0x03000000004900000053454c4543542070675f636174616c6f672e73657476616c28277075626c69632e6f617574685f6163636573735f6772616e74735f6964;
0x5f736571272c20312c2066616c7365293b0a0101000000010100000000060000007075626c6963010100000001010000000008000000706f7374677265730005;
0x00000066616c736500030000003237310101000000000000000000051100000000000000000100000030000100000030001a0000006f617574685f6163636573;
0x735f746f6b656e735f69645f736571000c00000053455155454e4345205345540003000000004900000053454c4543542070675f636174616c6f672e73657476;
0x616c28277075626c69632e6f617574685f6163636573735f746f6b656e735f69645f736571272c20312c2066616c7365293b0a01010000000101000000000600;
0x00007075626c6963010100000001010000000008000000706f737467726573000500000066616c73650003000000323733010100000000000000000006110000;
0x000000000000010000003000010000003000190000006f617574685f6170706c69636174696f6e735f69645f736571000c00000053455155454e434520534554;
0x0003000000004800000053454c4543542070675f636174616c6f672e73657476616c28277075626c69632e6f617574685f6170706c69636174696f6e735f6964;
0x5f736571272c20312c2066616c7365293b0a0101000000010100000000060000007075626c6963010100000001010000000008000000706f7374677265730005;
0x00000066616c73650003000000323735010100000000000000000007110000000000000000010000003000010000003000130000006f617574685f6e6f6e6365;
0x735f69645f736571000c00000053455155454e4345205345540003000000004200000053454c4543542070675f636174616c6f672e73657476616c2827707562;
0x6c69632e6f617574685f6e6f6e6365735f69645f736571272c20312c2066616c7365293b0a0101000000010100000000060000007075626c6963010100000001].
Definition toc_words_6 : list Z := [
0x010000000008000000706f737467726573000500000066616c736500030000003237370101000000000000000000081100000000000000000100000030000100;
0x00003000130000006f617574685f746f6b656e735f69645f736571000c00000053455155454e4345205345540003000000004200000053454c4543542070675f;
0x636174616c6f672e73657476616c28277075626c69632e6f617574685f746f6b656e735f69645f736571272c20312c2066616c7365293b0a0101000000010100;
0x000000060000007075626c6963010100000001010000000008000000706f737467726573000500000066616c7365000300000032373901010000000000000000;
0x000911000000000000000001000000300001000000300011000000726564616374696f6e735f69645f736571000c00000053455155454e434520534554000300;
0x0000004000000053454c4543542070675f636174616c6f672e73657476616c28277075626c69632e726564616374696f6e735f69645f736571272c20312c2066;
0x616c7365293b0a0101000000010100000000060000007075626c6963010100000001010000000008000000706f737467726573000500000066616c7365000300;
0x000032383101010000000000000000000a1100000000000000000100000030000100000030000e0000007265706f7274735f69645f736571000c000000534551;
0x55454e4345205345540003000000003d00000053454c4543542070675f636174616c6f672e73657476616c28277075626c69632e7265706f7274735f69645f73;
0x6571272c20312c2066616c7365293b0a0101000000010100000000060000007075626c6963010100000001010000000008000000706f73746772657300050000;
0x0066616c7365000300000032383601010000000000000000000b11000000000000000001000000300001000000300012000000757365725f626c6f636b735f69;
0x645f736571000c00000053455155454e4345205345540003000000004100000053454c4543542070675f636174616c6f672e73657476616c28277075626c6963;
0x2e757365725f626c6f636b735f69645f736571272c20312c2066616c7365293b0a0101000000010100000000060000007075626c696301010000000101000000;
0x0008000000706f737467726573000500000066616c7365000300000032383901010000000000000000000c110000000000000000010000003000010000003000;
0x11000000757365725f726f6c65735f69645f736571000c00000053455155454e4345205345540003000000004000000053454c4543542070675f636174616c6f;
0x672e73657476616c28277075626c69632e757365725f726f6c65735f69645f736571272c20312c2066616c7365293b0a01010000000101000000000600000070;
0x75626c6963010100000001010000000008000000706f737467726573000500000066616c7365000300000032393201010000000000000000000d110000000000;
0x00000001000000300001000000300012000000757365725f746f6b656e735f69645f736571000c00000053455155454e43452053455400030000000041000000;
0x53454c4543542070675f636174616c6f672e73657476616c28277075626c69632e757365725f746f6b656e735f69645f736571272c20312c2066616c7365293b;
0x0a0101000000010100000000060000007075626c6963010100000001010000000008000000706f737467726573000500000066616c7365000300000032393401;
0x010000000000000000000e1100000000000000000100000030000100000030000c00000075736572735f69645f736571000c00000053455155454e4345205345;
0x540003000000003b00000053454c4543542070675f636174616c6f672e73657476616c28277075626c69632e75736572735f69645f736571272c20312c206661;
0x6c7365293b0a0101000000010100000000060000007075626c6963010100000001010000000008000000706f737467726573000500000066616c736500030000;
0x003239360101000000000000000000e50e0000000000000000040000003236303600050000003137343830000e00000061636c732061636c735f706b6579000a;
0x000000434f4e53545241494e540004000000004c000000414c544552205441424c45204f4e4c59207075626c69632e61636c730a2020202041444420434f4e53;
0x545241494e542061636c735f706b6579205052494d415259204b455920286964293b0a0038000000414c544552205441424c45204f4e4c59207075626c69632e;
0x61636c732044524f5020434f4e53545241494e542061636c735f706b65793b0a010100000000060000007075626c696300000000000101000000000800000070;
0x6f737467726573000500000066616c736500030000003231350101000000000000000000ea0e0000000000000000040000003236303600050000003137343832;
0x003a0000006163746976655f73746f726167655f6174746163686d656e7473206163746976655f73746f726167655f6174746163686d656e74735f706b657900;
0x0a000000434f4e53545241494e5400040000000078000000414c544552205441424c45204f4e4c59207075626c69632e6163746976655f73746f726167655f61;
0x74746163686d656e74730a2020202041444420434f4e53545241494e54206163746976655f73746f726167655f6174746163686d656e74735f706b6579205052;
0x494d415259204b455920286964293b0a0064000000414c544552205441424c45204f4e4c59207075626c69632e6163746976655f73746f726167655f61747461;
0x63686d656e74732044524f5020434f4e53545241494e54206163746976655f73746f726167655f6174746163686d656e74735f706b65793b0a01010000000006;
0x0000007075626c6963000000000001010000000008000000706f737467726573000500000066616c736500030000003231370101000000000000000000ee0e00;
0x00000000000000040000003236303600050000003137343834002e0000006163746976655f73746f726167655f626c6f6273206163746976655f73746f726167;
0x655f626c6f62735f706b6579000a000000434f4e53545241494e540004000000006c000000414c544552205441424c45204f4e4c59207075626c69632e616374;
0x6976655f73746f726167655f626c6f62730a2020202041444420434f4e53545241494e54206163746976655f73746f726167655f626c6f62735f706b65792050;
0x52494d415259204b455920286964293b0a0058000000414c544552205441424c45204f4e4c59207075626c69632e6163746976655f73746f726167655f626c6f;
0x62732044524f5020434f4e53545241494e54206163746976655f73746f726167655f626c6f62735f706b65793b0a010100000000060000007075626c69630000;
0x00000001010000000008000000706f737467726573000500000066616c736500030000003231390101000000000000000000f10e000000000000000004000000;
0x323630360005000000313734383600420000006163746976655f73746f726167655f76617269616e745f7265636f726473206163746976655f73746f72616765;
0x5f76617269616e745f7265636f7264735f706b6579000a000000434f4e53545241494e5400040000000080000000414c544552205441424c45204f4e4c592070;
0x75626c69632e6163746976655f73746f726167655f76617269616e745f7265636f7264730a2020202041444420434f4e53545241494e54206163746976655f73;
0x746f726167655f76617269616e745f7265636f7264735f706b6579205052494d415259204b455920286964293b0a006c000000414c544552205441424c45204f;
0x4e4c59207075626c69632e6163746976655f73746f726167655f76617269616e745f7265636f7264732044524f5020434f4e53545241494e5420616374697665;
0x5f73746f726167655f76617269616e745f7265636f7264735f706b65793b0a010100000000060000007075626c6963000000000001010000000008000000706f;
0x737467726573000500000066616c736500030000003232310101000000000000000000f40e000000000000000004000000323630360005000000313734383800;
0x2e00000061725f696e7465726e616c5f6d657461646174612061725f696e7465726e616c5f6d657461646174615f706b6579000a000000434f4e53545241494e;
0x540004000000006d000000414c544552205441424c45204f4e4c59207075626c69632e61725f696e7465726e616c5f6d657461646174610a2020202041444420;
0x434f4e53545241494e542061725f696e7465726e616c5f6d657461646174615f706b6579205052494d415259204b455920286b6579293b0a0058000000414c54;
0x4552205441424c45204f4e4c59207075626c69632e61725f696e7465726e616c5f6d657461646174612044524f5020434f4e53545241494e542061725f696e74;
0x65726e616c5f6d657461646174615f706b65793b0a010100000000060000007075626c6963000000000001010000000008000000706f73746772657300050000;
0x0066616c736500030000003232330101000000000000000000f60e0000000000000000040000003236303600050000003137343930002a0000006368616e6765;
0x7365745f636f6d6d656e7473206368616e67657365745f636f6d6d656e74735f706b6579000a000000434f4e53545241494e5400040000000068000000414c54;
0x4552205441424c45204f4e4c59207075626c69632e6368616e67657365745f636f6d6d656e74730a2020202041444420434f4e53545241494e54206368616e67;
0x657365745f636f6d6d656e74735f706b6579205052494d415259204b455920286964293b0a0054000000414c544552205441424c45204f4e4c59207075626c69;
0x632e6368616e67657365745f636f6d6d656e74732044524f5020434f4e53545241494e54206368616e67657365745f636f6d6d656e74735f706b65793b0a0101;
0x00000000060000007075626c6963000000000001010000000008000000706f737467726573000500000066616c73650003000000323234010100000000000000;
0x0000fe0e0000000000000000040000003236303600050000003137343932001a0000006368616e676573657473206368616e6765736574735f706b6579000a00;
0x0000434f4e53545241494e5400040000000058000000414c544552205441424c45204f4e4c59207075626c69632e6368616e6765736574730a20202020414444;
0x20434f4e53545241494e54206368616e6765736574735f706b6579205052494d415259204b455920286964293b0a0044000000414c544552205441424c45204f;
0x4e4c59207075626c69632e6368616e6765736574732044524f5020434f4e53545241494e54206368616e6765736574735f706b65793b0a010100000000060000;
0x007075626c6963000000000001010000000008000000706f737467726573000500000066616c736500030000003232370101000000000000000000040f000000;
0x0000000000040000003236303600050000003137343934002c000000636c69656e745f6170706c69636174696f6e7320636c69656e745f6170706c6963617469;
0x6f6e735f706b6579000a000000434f4e53545241494e540004000000006a000000414c544552205441424c45204f4e4c59207075626c69632e636c69656e745f;
0x6170706c69636174696f6e730a2020202041444420434f4e53545241494e5420636c69656e745f6170706c69636174696f6e735f706b6579205052494d415259;
0x204b455920286964293b0a0056000000414c544552205441424c45204f4e4c59207075626c69632e636c69656e745f6170706c69636174696f6e732044524f50;
0x20434f4e53545241494e5420636c69656e745f6170706c69636174696f6e735f706b65793b0a010100000000060000007075626c696300000000000101000000;
0x0008000000706f737467726573000500000066616c736500030000003233300101000000000000000000080f0000000000000000040000003236303600050000;
0x003137343936002800000063757272656e745f6e6f64655f746167732063757272656e745f6e6f64655f746167735f706b6579000a000000434f4e5354524149;
0x4e540004000000006e000000414c544552205441424c45204f4e4c59207075626c69632e63757272656e745f6e6f64655f746167730a2020202041444420434f;
0x4e53545241494e542063757272656e745f6e6f64655f746167735f706b6579205052494d415259204b455920286e6f64655f69642c206b293b0a005200000041;
0x4c544552205441424c45204f4e4c59207075626c69632e63757272656e745f6e6f64655f746167732044524f5020434f4e53545241494e542063757272656e74;
0x5f6e6f64655f746167735f706b65793b0a010100000000060000007075626c6963000000000001010000000008000000706f737467726573000500000066616c;
0x73650003000000323332000300000032333201010000000000000000000a0f000000000000000004000000323630360005000000313734393800210000006375;
0x7272656e745f6e6f6465732063757272656e745f6e6f6465735f706b657931000a000000434f4e53545241494e540004000000005f000000414c544552205441;
0x424c45204f4e4c59207075626c69632e63757272656e745f6e6f6465730a2020202041444420434f4e53545241494e542063757272656e745f6e6f6465735f70;
0x6b657931205052494d415259204b455920286964293b0a004b000000414c544552205441424c45204f4e4c59207075626c69632e63757272656e745f6e6f6465;
0x732044524f5020434f4e53545241494e542063757272656e745f6e6f6465735f706b6579313b0a010100000000060000007075626c6963000000000001010000;
0x000008000000706f737467726573000500000066616c7365000300000032333301010000000000000000000f0f00000000000000000400000032363036000500;
0x00003137353030003600000063757272656e745f72656c6174696f6e5f6d656d626572732063757272656e745f72656c6174696f6e5f6d656d626572735f706b;
0x6579000a000000434f4e53545241494e54000400000000af000000414c544552205441424c45204f4e4c59207075626c69632e63757272656e745f72656c6174;
0x696f6e5f6d656d626572730a2020202041444420434f4e53545241494e542063757272656e745f72656c6174696f6e5f6d656d626572735f706b657920505249;
0x4d415259204b4559202872656c6174696f6e5f69642c206d656d6265725f747970652c206d656d6265725f69642c206d656d6265725f726f6c652c2073657175;
0x656e63655f6964293b0a0060000000414c544552205441424c45204f4e4c59207075626c69632e63757272656e745f72656c6174696f6e5f6d656d6265727320;
0x44524f5020434f4e53545241494e542063757272656e745f72656c6174696f6e5f6d656d626572735f706b65793b0a010100000000060000007075626c696300;
0x0000000001010000000008000000706f737467726573000500000066616c73650003000000323335000300000032333500030000003233350003000000323335;
0x00030000003233350101000000000000000000110f0000000000000000040000003236303600050000003137353032003000000063757272656e745f72656c61;
0x74696f6e5f746167732063757272656e745f72656c6174696f6e5f746167735f706b6579000a000000434f4e53545241494e540004000000007a000000414c54;
0x4552205441424c45204f4e4c59207075626c69632e63757272656e745f72656c6174696f6e5f746167730a2020202041444420434f4e53545241494e54206375;
0x7272656e745f72656c6174696f6e5f746167735f706b6579205052494d415259204b4559202872656c6174696f6e5f69642c206b293b0a005a000000414c5445;
0x52205441424c45204f4e4c59207075626c69632e63757272656e745f72656c6174696f6e5f746167732044524f5020434f4e53545241494e542063757272656e;
0x745f72656c6174696f6e5f746167735f706b65793b0a010100000000060000007075626c6963000000000001010000000008000000706f737467726573000500;
0x000066616c7365000300000032333600030000003233360101000000000000000000130f00000000000000000400000032363036000500000031373530340028;
0x00000063757272656e745f72656c6174696f6e732063757272656e745f72656c6174696f6e735f706b6579000a000000434f4e53545241494e54000400000000;
0x66000000414c544552205441424c45204f4e4c59207075626c69632e63757272656e745f72656c6174696f6e730a2020202041444420434f4e53545241494e54;
0x2063757272656e745f72656c6174696f6e735f706b6579205052494d415259204b455920286964293b0a0052000000414c544552205441424c45204f4e4c5920;
0x7075626c69632e63757272656e745f72656c6174696f6e732044524f5020434f4e53545241494e542063757272656e745f72656c6174696f6e735f706b65793b;
0x0a010100000000060000007075626c6963000000000001010000000008000000706f737467726573000500000066616c73650003000000323337010100000000;
0x0000000000170f0000000000000000040000003236303600050000003137353036002800000063757272656e745f7761795f6e6f6465732063757272656e745f;
0x7761795f6e6f6465735f706b6579000a000000434f4e53545241494e5400040000000077000000414c544552205441424c45204f4e4c59207075626c69632e63;
0x757272656e745f7761795f6e6f6465730a2020202041444420434f4e53545241494e542063757272656e745f7761795f6e6f6465735f706b6579205052494d41;
0x5259204b455920287761795f69642c2073657175656e63655f6964293b0a0052000000414c544552205441424c45204f4e4c59207075626c69632e6375727265;
0x6e745f7761795f6e6f6465732044524f5020434f4e53545241494e542063757272656e745f7761795f6e6f6465735f706b65793b0a0101000000000600000070;
0x75626c6963000000000001010000000008000000706f737467726573000500000066616c73650003000000323339000300000032333901010000000000000000;
0x00190f0000000000000000040000003236303600050000003137353038002600000063757272656e745f7761795f746167732063757272656e745f7761795f74;
0x6167735f706b6579000a000000434f4e53545241494e540004000000006b000000414c544552205441424c45204f4e4c59207075626c69632e63757272656e74;
0x5f7761795f746167730a2020202041444420434f4e53545241494e542063757272656e745f7761795f746167735f706b6579205052494d415259204b45592028;
0x7761795f69642c206b293b0a0050000000414c544552205441424c45204f4e4c59207075626c69632e63757272656e745f7761795f746167732044524f502043;
0x4f4e53545241494e542063757272656e745f7761795f746167735f706b65793b0a010100000000060000007075626c6963000000000001010000000008000000;
0x706f737467726573000500000066616c73650003000000323430000300000032343001010000000000000000001b0f0000000000000000040000003236303600;
0x050000003137353130001e00000063757272656e745f776179732063757272656e745f776179735f706b6579000a000000434f4e53545241494e540004000000;
0x005c000000414c544552205441424c45204f4e4c59207075626c69632e63757272656e745f776179730a2020202041444420434f4e53545241494e5420637572;
0x72656e745f776179735f706b6579205052494d415259204b455920286964293b0a0048000000414c544552205441424c45204f4e4c59207075626c69632e6375;
0x7272656e745f776179732044524f5020434f4e53545241494e542063757272656e745f776179735f706b65793b0a010100000000060000007075626c69630000;
0x00000001010000000008000000706f737467726573000500000066616c7365000300000032343101010000000000000000001e0f000000000000000004000000;
0x3236303600050000003137353132001e00000064656c617965645f6a6f62732064656c617965645f6a6f62735f706b6579000a000000434f4e53545241494e54;
0x0004000000005c000000414c544552205441424c45204f4e4c59207075626c69632e64656c617965645f6a6f62730a2020202041444420434f4e53545241494e;
0x542064656c617965645f6a6f62735f706b6579205052494d415259204b455920286964293b0a0048000000414c544552205441424c45204f4e4c59207075626c;
0x69632e64656c617965645f6a6f62732044524f5020434f4e53545241494e542064656c617965645f6a6f62735f706b65793b0a01010000000006000000707562;
0x6c6963000000000001010000000008000000706f737467726573000500000066616c736500030000003234330101000000000000000000230f00000000000000;
0x00040000003236303600050000003137353134002200000064696172795f636f6d6d656e74732064696172795f636f6d6d656e74735f706b6579000a00000043;
0x4f4e53545241494e5400040000000060000000414c544552205441424c45204f4e4c59207075626c69632e64696172795f636f6d6d656e74730a202020204144;
0x4420434f4e53545241494e542064696172795f636f6d6d656e74735f706b6579205052494d415259204b455920286964293b0a004c000000414c544552205441;
0x424c45204f4e4c59207075626c69632e64696172795f636f6d6d656e74732044524f5020434f4e53545241494e542064696172795f636f6d6d656e74735f706b;
0x65793b0a010100000000060000007075626c6963000000000001010000000008000000706f737467726573000500000066616c73650003000000323435010100;
0x0000000000000000250f0000000000000000040000003236303600050000003137353136002000000064696172795f656e74726965732064696172795f656e74;
0x726965735f706b6579000a000000434f4e53545241494e540004000000005e000000414c544552205441424c45204f4e4c59207075626c69632e64696172795f;
0x656e74726965730a2020202041444420434f4e53545241494e542064696172795f656e74726965735f706b6579205052494d415259204b455920286964293b0a;
0x004a000000414c544552205441424c45204f4e4c59207075626c69632e64696172795f656e74726965732044524f5020434f4e53545241494e54206469617279;
0x5f656e74726965735f706b65793b0a010100000000060000007075626c6963000000000001010000000008000000706f737467726573000500000066616c7365;
0x000300000032343701010000000000000000002a0f0000000000000000040000003236303600050000003137353138003800000064696172795f656e7472795f;
0x737562736372697074696f6e732064696172795f656e7472795f737562736372697074696f6e735f706b6579000a000000434f4e53545241494e540004000000;
0x008b000000414c544552205441424c45204f4e4c59207075626c69632e64696172795f656e7472795f737562736372697074696f6e730a202020204144442043;
0x4f4e53545241494e542064696172795f656e7472795f737562736372697074696f6e735f706b6579205052494d415259204b45592028757365725f69642c2064;
0x696172795f656e7472795f6964293b0a0062000000414c544552205441424c45204f4e4c59207075626c69632e64696172795f656e7472795f73756273637269;
0x7074696f6e732044524f5020434f4e53545241494e542064696172795f656e7472795f737562736372697074696f6e735f706b65793b0a010100000000060000;
0x007075626c6963000000000001010000000008000000706f737467726573000500000066616c7365000300000032343900030000003234390101000000000000;
0x0000002d0f00000000000000000400000032363036000500000031373532300014000000667269656e647320667269656e64735f706b6579000a000000434f4e;
0x53545241494e5400040000000052000000414c544552205441424c45204f4e4c59207075626c69632e667269656e64730a2020202041444420434f4e53545241;
0x494e5420667269656e64735f706b6579205052494d415259204b455920286964293b0a003e000000414c544552205441424c45204f4e4c59207075626c69632e;
0x667269656e64732044524f5020434f4e53545241494e5420667269656e64735f706b65793b0a010100000000060000007075626c696300000000000101000000;
0x0008000000706f737467726573000500000066616c736500030000003235300101000000000000000000340f0000000000000000040000003236303600050000;
0x00313735323200200000006770785f66696c655f74616773206770785f66696c655f746167735f706b6579000a000000434f4e53545241494e54000400000000;
0x5e000000414c544552205441424c45204f4e4c59207075626c69632e6770785f66696c655f746167730a2020202041444420434f4e53545241494e5420677078;
0x5f66696c655f746167735f706b6579205052494d415259204b455920286964293b0a004a000000414c544552205441424c45204f4e4c59207075626c69632e67;
0x70785f66696c655f746167732044524f5020434f4e53545241494e54206770785f66696c655f746167735f706b65793b0a010100000000060000007075626c69;
0x63000000000001010000000008000000706f737467726573000500000066616c736500030000003235330101000000000000000000370f000000000000000004;
0x000000323630360005000000313735323400180000006770785f66696c6573206770785f66696c65735f706b6579000a000000434f4e53545241494e54000400;
0x00000056000000414c544552205441424c45204f4e4c59207075626c69632e6770785f66696c65730a2020202041444420434f4e53545241494e54206770785f;
0x66696c65735f706b6579205052494d415259204b455920286964293b0a0042000000414c544552205441424c45204f4e4c59207075626c69632e6770785f6669;
0x6c65732044524f5020434f4e53545241494e54206770785f66696c65735f706b65793b0a010100000000060000007075626c6963000000000001010000000008;
0x000000706f737467726573000500000066616c7365000300000032353501010000000000000000003e0f00000000000000000400000032363036000500000031;
0x37353236002200000069737375655f636f6d6d656e74732069737375655f636f6d6d656e74735f706b6579000a000000434f4e53545241494e54000400000000;
0x60000000414c544552205441424c45204f4e4c59207075626c69632e69737375655f636f6d6d656e74730a2020202041444420434f4e53545241494e54206973;
0x7375655f636f6d6d656e74735f706b6579205052494d415259204b455920286964293b0a004c000000414c544552205441424c45204f4e4c59207075626c6963;
0x2e69737375655f636f6d6d656e74732044524f5020434f4e53545241494e542069737375655f636f6d6d656e74735f706b65793b0a0101000000000600000070;
0x75626c6963000000000001010000000008000000706f737467726573000500000066616c736500030000003235370101000000000000000000450f0000000000;
0x0000000400000032363036000500000031373532380012000000697373756573206973737565735f706b6579000a000000434f4e53545241494e540004000000;
0x0050000000414c544552205441424c45204f4e4c59207075626c69632e6973737565730a2020202041444420434f4e53545241494e54206973737565735f706b;
0x6579205052494d415259204b455920286964293b0a003c000000414c544552205441424c45204f4e4c59207075626c69632e6973737565732044524f5020434f;
0x4e53545241494e54206973737565735f706b65793b0a010100000000060000007075626c6963000000000001010000000008000000706f737467726573000500;
0x000066616c736500030000003235390101000000000000000000470f000000000000000004000000323630360005000000313735333000180000006c616e6775;
0x61676573206c616e6775616765735f706b6579000a000000434f4e53545241494e5400040000000058000000414c544552205441424c45204f4e4c5920707562;
0x6c69632e6c616e6775616765730a2020202041444420434f4e53545241494e54206c616e6775616765735f706b6579205052494d415259204b45592028636f64;
0x65293b0a0042000000414c544552205441424c45204f4e4c59207075626c69632e6c616e6775616765732044524f5020434f4e53545241494e54206c616e6775;
0x616765735f706b65793b0a010100000000060000007075626c6963000000000001010000000008000000706f737467726573000500000066616c736500030000;
0x0032363101010000000000000000004a0f000000000000000004000000323630360005000000313735333200160000006d65737361676573206d657373616765;
0x735f706b6579000a000000434f4e53545241494e5400040000000054000000414c544552205441424c45204f4e4c59207075626c69632e6d657373616765730a;
0x2020202041444420434f4e53545241494e54206d657373616765735f706b6579205052494d415259204b455920286964293b0a0040000000414c544552205441;
0x424c45204f4e4c59207075626c69632e6d657373616765732044524f5020434f4e53545241494e54206d657373616765735f706b65793b0a0101000000000600;
0x00007075626c6963000000000001010000000008000000706f737467726573000500000066616c7365000300000032363201010000000000000000004d0f0000;
0x00000000000004000000323630360005000000313735333400180000006e6f64655f74616773206e6f64655f746167735f706b6579000a000000434f4e535452;
0x41494e5400040000000067000000414c544552205441424c45204f4e4c59207075626c69632e6e6f64655f746167730a2020202041444420434f4e5354524149;
0x4e54206e6f64655f746167735f706b6579205052494d415259204b455920286e6f64655f69642c2076657273696f6e2c206b293b0a0042000000414c54455220;
0x5441424c45204f4e4c59207075626c69632e6e6f64655f746167732044524f5020434f4e53545241494e54206e6f64655f746167735f706b65793b0a01010000;
0x0000060000007075626c6963000000000001010000000008000000706f737467726573000500000066616c736500030000003236340003000000323634000300;
0x00003236340101000000000000000000500f000000000000000004000000323630360005000000313735333600100000006e6f646573206e6f6465735f706b65;
0x79000a000000434f4e53545241494e540004000000005c000000414c544552205441424c45204f4e4c59207075626c69632e6e6f6465730a2020202041444420;
0x434f4e53545241494e54206e6f6465735f706b6579205052494d415259204b455920286e6f64655f69642c2076657273696f6e293b0a003a000000414c544552;
0x205441424c45204f4e4c59207075626c69632e6e6f6465732044524f5020434f4e53545241494e54206e6f6465735f706b65793b0a0101000000000600000070;
0x75626c6963000000000001010000000008000000706f737467726573000500000066616c73650003000000323635000300000032363501010000000000000000;
0x00580f000000000000000004000000323630360005000000313735333800200000006e6f74655f636f6d6d656e7473206e6f74655f636f6d6d656e74735f706b;
0x6579000a000000434f4e53545241494e540004000000005e000000414c544552205441424c45204f4e4c59207075626c69632e6e6f74655f636f6d6d656e7473;
0x0a2020202041444420434f4e53545241494e54206e6f74655f636f6d6d656e74735f706b6579205052494d415259204b455920286964293b0a004a000000414c;
0x544552205441424c45204f4e4c59207075626c69632e6e6f74655f636f6d6d656e74732044524f5020434f4e53545241494e54206e6f74655f636f6d6d656e74;
0x735f706b65793b0a010100000000060000007075626c6963000000000001010000000008000000706f737467726573000500000066616c736500030000003236;
0x3601010000000000000000005b0f000000000000000004000000323630360005000000313735343000100000006e6f746573206e6f7465735f706b6579000a00;
0x0000434f4e53545241494e540004000000004e000000414c544552205441424c45204f4e4c59207075626c69632e6e6f7465730a2020202041444420434f4e53;
0x545241494e54206e6f7465735f706b6579205052494d415259204b455920286964293b0a003a000000414c544552205441424c45204f4e4c59207075626c6963;
0x2e6e6f7465732044524f5020434f4e53545241494e54206e6f7465735f706b65793b0a010100000000060000007075626c696300000000000101000000000800;
0x0000706f737467726573000500000066616c736500030000003236380101000000000000000000620f0000000000000000040000003236303600050000003137;
0x353432002c0000006f617574685f6163636573735f6772616e7473206f617574685f6163636573735f6772616e74735f706b6579000a000000434f4e53545241;
0x494e540004000000006a000000414c544552205441424c45204f4e4c59207075626c69632e6f617574685f6163636573735f6772616e74730a20202020414444;
0x20434f4e53545241494e54206f617574685f6163636573735f6772616e74735f706b6579205052494d415259204b455920286964293b0a0056000000414c5445;
0x52205441424c45204f4e4c59207075626c69632e6f617574685f6163636573735f6772616e74732044524f5020434f4e53545241494e54206f617574685f6163;
0x636573735f6772616e74735f706b65793b0a010100000000060000007075626c6963000000000001010000000008000000706f73746772657300050000006661;
0x6c736500030000003237300101000000000000000000680f0000000000000000040000003236303600050000003137353434002c0000006f617574685f616363;
0x6573735f746f6b656e73206f617574685f6163636573735f746f6b656e735f706b6579000a000000434f4e53545241494e540004000000006a000000414c5445;
0x52205441424c45204f4e4c59207075626c69632e6f617574685f6163636573735f746f6b656e730a2020202041444420434f4e53545241494e54206f61757468].
Definition toc_words_7 : list Z := [
0x5f6163636573735f746f6b656e735f706b6579205052494d415259204b455920286964293b0a0056000000414c544552205441424c45204f4e4c59207075626c;
0x69632e6f617574685f6163636573735f746f6b656e732044524f5020434f4e53545241494e54206f617574685f6163636573735f746f6b656e735f706b65793b;
0x0a010100000000060000007075626c6963000000000001010000000008000000706f737467726573000500000066616c73650003000000323732010100000000;
0x00000000006c0f0000000000000000040000003236303600050000003137353436002a0000006f617574685f6170706c69636174696f6e73206f617574685f61;
0x70706c69636174696f6e735f706b6579000a000000434f4e53545241494e5400040000000068000000414c544552205441424c45204f4e4c59207075626c6963;
0x2e6f617574685f6170706c69636174696f6e730a2020202041444420434f4e53545241494e54206f617574685f6170706c69636174696f6e735f706b65792050;
0x52494d415259204b455920286964293b0a0054000000414c544552205441424c45204f4e4c59207075626c69632e6f617574685f6170706c69636174696f6e73;
0x2044524f5020434f4e53545241494e54206f617574685f6170706c69636174696f6e735f706b65793b0a010100000000060000007075626c6963000000000001;
0x010000000008000000706f737467726573000500000066616c7365000300000032373401010000000000000000006f0f00000000000000000400000032363036;
0x00050000003137353438001e0000006f617574685f6e6f6e636573206f617574685f6e6f6e6365735f706b6579000a000000434f4e53545241494e5400040000;
0x00005c000000414c544552205441424c45204f4e4c59207075626c69632e6f617574685f6e6f6e6365730a2020202041444420434f4e53545241494e54206f61;
0x7574685f6e6f6e6365735f706b6579205052494d415259204b455920286964293b0a0048000000414c544552205441424c45204f4e4c59207075626c69632e6f;
0x617574685f6e6f6e6365732044524f5020434f4e53545241494e54206f617574685f6e6f6e6365735f706b65793b0a010100000000060000007075626c696300;
0x0000000001010000000008000000706f737467726573000500000066616c736500030000003237360101000000000000000000730f0000000000000000040000;
0x003236303600050000003137353530001e0000006f617574685f746f6b656e73206f617574685f746f6b656e735f706b6579000a000000434f4e53545241494e;
0x540004000000005c000000414c544552205441424c45204f4e4c59207075626c69632e6f617574685f746f6b656e730a2020202041444420434f4e5354524149;
0x4e54206f617574685f746f6b656e735f706b6579205052494d415259204b455920286964293b0a0048000000414c544552205441424c45204f4e4c5920707562;
0x6c69632e6f617574685f746f6b656e732044524f5020434f4e53545241494e54206f617574685f746f6b656e735f706b65793b0a010100000000060000007075;
0x626c6963000000000001010000000008000000706f737467726573000500000066616c736500030000003237380101000000000000000000750f000000000000;
0x0000040000003236303600050000003137353532001a000000726564616374696f6e7320726564616374696f6e735f706b6579000a000000434f4e5354524149;
0x4e5400040000000058000000414c544552205441424c45204f4e4c59207075626c69632e726564616374696f6e730a2020202041444420434f4e53545241494e;
0x5420726564616374696f6e735f706b6579205052494d415259204b455920286964293b0a0044000000414c544552205441424c45204f4e4c59207075626c6963;
0x2e726564616374696f6e732044524f5020434f4e53545241494e5420726564616374696f6e735f706b65793b0a010100000000060000007075626c6963000000;
0x000001010000000008000000706f737467726573000500000066616c736500030000003238300101000000000000000000780f00000000000000000400000032;
0x36303600050000003137353534002600000072656c6174696f6e5f6d656d626572732072656c6174696f6e5f6d656d626572735f706b6579000a000000434f4e;
0x53545241494e54000400000000a8000000414c544552205441424c45204f4e4c59207075626c69632e72656c6174696f6e5f6d656d626572730a202020204144;
0x4420434f4e53545241494e542072656c6174696f6e5f6d656d626572735f706b6579205052494d415259204b4559202872656c6174696f6e5f69642c20766572;
0x73696f6e2c206d656d6265725f747970652c206d656d6265725f69642c206d656d6265725f726f6c652c2073657175656e63655f6964293b0a0050000000414c;
0x544552205441424c45204f4e4c59207075626c69632e72656c6174696f6e5f6d656d626572732044524f5020434f4e53545241494e542072656c6174696f6e5f;
0x6d656d626572735f706b65793b0a010100000000060000007075626c6963000000000001010000000008000000706f737467726573000500000066616c736500;
0x030000003238320003000000323832000300000032383200030000003238320003000000323832000300000032383201010000000000000000007a0f00000000;
0x00000000040000003236303600050000003137353536002000000072656c6174696f6e5f746167732072656c6174696f6e5f746167735f706b6579000a000000;
0x434f4e53545241494e5400040000000073000000414c544552205441424c45204f4e4c59207075626c69632e72656c6174696f6e5f746167730a202020204144;
0x4420434f4e53545241494e542072656c6174696f6e5f746167735f706b6579205052494d415259204b4559202872656c6174696f6e5f69642c2076657273696f;
0x6e2c206b293b0a004a000000414c544552205441424c45204f4e4c59207075626c69632e72656c6174696f6e5f746167732044524f5020434f4e53545241494e;
0x542072656c6174696f6e5f746167735f706b65793b0a010100000000060000007075626c6963000000000001010000000008000000706f737467726573000500;
0x000066616c736500030000003238330003000000323833000300000032383301010000000000000000007d0f0000000000000000040000003236303600050000;
0x003137353538001800000072656c6174696f6e732072656c6174696f6e735f706b6579000a000000434f4e53545241494e5400040000000068000000414c5445;
0x52205441424c45204f4e4c59207075626c69632e72656c6174696f6e730a2020202041444420434f4e53545241494e542072656c6174696f6e735f706b657920;
0x5052494d415259204b4559202872656c6174696f6e5f69642c2076657273696f6e293b0a0042000000414c544552205441424c45204f4e4c59207075626c6963;
0x2e72656c6174696f6e732044524f5020434f4e53545241494e542072656c6174696f6e735f706b65793b0a010100000000060000007075626c69630000000000;
0x01010000000008000000706f737467726573000500000066616c7365000300000032383400030000003238340101000000000000000000820f00000000000000;
0x0004000000323630360005000000313735363000140000007265706f727473207265706f7274735f706b6579000a000000434f4e53545241494e540004000000;
0x0052000000414c544552205441424c45204f4e4c59207075626c69632e7265706f7274730a2020202041444420434f4e53545241494e54207265706f7274735f;
0x706b6579205052494d415259204b455920286964293b0a003e000000414c544552205441424c45204f4e4c59207075626c69632e7265706f7274732044524f50;
0x20434f4e53545241494e54207265706f7274735f706b65793b0a010100000000060000007075626c6963000000000001010000000008000000706f7374677265;
0x73000500000066616c736500030000003238350101000000000000000000840f0000000000000000040000003236303600050000003137353632002800000073;
0x6368656d615f6d6967726174696f6e7320736368656d615f6d6967726174696f6e735f706b6579000a000000434f4e53545241494e540004000000006b000000;
0x414c544552205441424c45204f4e4c59207075626c69632e736368656d615f6d6967726174696f6e730a2020202041444420434f4e53545241494e5420736368;
0x656d615f6d6967726174696f6e735f706b6579205052494d415259204b4559202876657273696f6e293b0a0052000000414c544552205441424c45204f4e4c59;
0x207075626c69632e736368656d615f6d6967726174696f6e732044524f5020434f4e53545241494e5420736368656d615f6d6967726174696f6e735f706b6579;
0x3b0a010100000000060000007075626c6963000000000001010000000008000000706f737467726573000500000066616c736500030000003238370101000000;
0x000000000000870f0000000000000000040000003236303600050000003137353634001c000000757365725f626c6f636b7320757365725f626c6f636b735f70;
0x6b6579000a000000434f4e53545241494e540004000000005a000000414c544552205441424c45204f4e4c59207075626c69632e757365725f626c6f636b730a;
0x2020202041444420434f4e53545241494e5420757365725f626c6f636b735f706b6579205052494d415259204b455920286964293b0a0046000000414c544552;
0x205441424c45204f4e4c59207075626c69632e757365725f626c6f636b732044524f5020434f4e53545241494e5420757365725f626c6f636b735f706b65793b;
0x0a010100000000060000007075626c6963000000000001010000000008000000706f737467726573000500000066616c73650003000000323838010100000000;
0x0000000000890f00000000000000000400000032363036000500000031373536360026000000757365725f707265666572656e63657320757365725f70726566;
0x6572656e6365735f706b6579000a000000434f4e53545241494e540004000000006c000000414c544552205441424c45204f4e4c59207075626c69632e757365;
0x725f707265666572656e6365730a2020202041444420434f4e53545241494e5420757365725f707265666572656e6365735f706b6579205052494d415259204b;
0x45592028757365725f69642c206b293b0a0050000000414c544552205441424c45204f4e4c59207075626c69632e757365725f707265666572656e6365732044;
0x524f5020434f4e53545241494e5420757365725f707265666572656e6365735f706b65793b0a010100000000060000007075626c696300000000000101000000;
0x0008000000706f737467726573000500000066616c73650003000000323930000300000032393001010000000000000000008c0f000000000000000004000000;
0x3236303600050000003137353638001a000000757365725f726f6c657320757365725f726f6c65735f706b6579000a000000434f4e53545241494e5400040000;
0x000058000000414c544552205441424c45204f4e4c59207075626c69632e757365725f726f6c65730a2020202041444420434f4e53545241494e542075736572;
0x5f726f6c65735f706b6579205052494d415259204b455920286964293b0a0044000000414c544552205441424c45204f4e4c59207075626c69632e757365725f;
0x726f6c65732044524f5020434f4e53545241494e5420757365725f726f6c65735f706b65793b0a010100000000060000007075626c6963000000000001010000;
0x000008000000706f737467726573000500000066616c7365000300000032393101010000000000000000008e0f00000000000000000400000032363036000500;
0x00003137353730001c000000757365725f746f6b656e7320757365725f746f6b656e735f706b6579000a000000434f4e53545241494e540004000000005a0000;
0x00414c544552205441424c45204f4e4c59207075626c69632e757365725f746f6b656e730a2020202041444420434f4e53545241494e5420757365725f746f6b;
0x656e735f706b6579205052494d415259204b455920286964293b0a0046000000414c544552205441424c45204f4e4c59207075626c69632e757365725f746f6b;
0x656e732044524f5020434f4e53545241494e5420757365725f746f6b656e735f706b65793b0a010100000000060000007075626c696300000000000101000000;
0x0008000000706f737467726573000500000066616c736500030000003239330101000000000000000000980f0000000000000000040000003236303600050000;
0x003137353732001000000075736572732075736572735f706b6579000a000000434f4e53545241494e540004000000004e000000414c544552205441424c4520;
0x4f4e4c59207075626c69632e75736572730a2020202041444420434f4e53545241494e542075736572735f706b6579205052494d415259204b45592028696429;
0x3b0a003a000000414c544552205441424c45204f4e4c59207075626c69632e75736572732044524f5020434f4e53545241494e542075736572735f706b65793b;
0x0a010100000000060000007075626c6963000000000001010000000008000000706f737467726573000500000066616c73650003000000323935010100000000;
0x00000000009b0f000000000000000004000000323630360005000000313735373400180000007761795f6e6f646573207761795f6e6f6465735f706b6579000a;
0x000000434f4e53545241494e5400040000000070000000414c544552205441424c45204f4e4c59207075626c69632e7761795f6e6f6465730a20202020414444;
0x20434f4e53545241494e54207761795f6e6f6465735f706b6579205052494d415259204b455920287761795f69642c2076657273696f6e2c2073657175656e63;
0x655f6964293b0a0042000000414c544552205441424c45204f4e4c59207075626c69632e7761795f6e6f6465732044524f5020434f4e53545241494e54207761;
0x795f6e6f6465735f706b65793b0a010100000000060000007075626c6963000000000001010000000008000000706f737467726573000500000066616c736500;
0x030000003239370003000000323937000300000032393701010000000000000000009d0f00000000000000000400000032363036000500000031373537360016;
0x0000007761795f74616773207761795f746167735f706b6579000a000000434f4e53545241494e5400040000000064000000414c544552205441424c45204f4e;
0x4c59207075626c69632e7761795f746167730a2020202041444420434f4e53545241494e54207761795f746167735f706b6579205052494d415259204b455920;
0x287761795f69642c2076657273696f6e2c206b293b0a0040000000414c544552205441424c45204f4e4c59207075626c69632e7761795f746167732044524f50;
0x20434f4e53545241494e54207761795f746167735f706b65793b0a010100000000060000007075626c6963000000000001010000000008000000706f73746772;
0x6573000500000066616c73650003000000323938000300000032393800030000003239380101000000000000000000a00f000000000000000004000000323630;
0x3600050000003137353738000e0000007761797320776179735f706b6579000a000000434f4e53545241494e5400040000000059000000414c54455220544142;
0x4c45204f4e4c59207075626c69632e776179730a2020202041444420434f4e53545241494e5420776179735f706b6579205052494d415259204b455920287761;
0x795f69642c2076657273696f6e293b0a0038000000414c544552205441424c45204f4e4c59207075626c69632e776179732044524f5020434f4e53545241494e;
0x5420776179735f706b65793b0a010100000000060000007075626c6963000000000001010000000008000000706f737467726573000500000066616c73650003;
0x00000032393900030000003239390101000000000000000000e30e0000000000000000040000003132353900050000003137353739000a00000061636c735f6b;
0x5f6964780005000000494e4445580004000000003800000043524541544520494e4445582061636c735f6b5f696478204f4e207075626c69632e61636c732055;
0x53494e4720627472656520286b293b0a001e00000044524f5020494e444558207075626c69632e61636c735f6b5f6964783b0a01010000000006000000707562;
0x6c6963000000000001010000000008000000706f737467726573000500000066616c736500030000003231350101000000000000000000f90e00000000000000;
0x0004000000313235390005000000313735383000150000006368616e67657365745f746167735f69645f6964780005000000494e444558000400000000580000;
0x0043524541544520494e444558206368616e67657365745f746167735f69645f696478204f4e207075626c69632e6368616e67657365745f7461677320555349;
0x4e4720627472656520286368616e67657365745f6964293b0a002900000044524f5020494e444558207075626c69632e6368616e67657365745f746167735f69;
0x645f6964783b0a010100000000060000007075626c6963000000000001010000000008000000706f737467726573000500000066616c73650003000000323236;
0x0101000000000000000000fa0e000000000000000004000000313235390005000000313735383100130000006368616e6765736574735f62626f785f69647800;
0x05000000494e4445580004000000006700000043524541544520494e444558206368616e6765736574735f62626f785f696478204f4e207075626c69632e6368;
0x616e676573657473205553494e47206769737420286d696e5f6c61742c206d61785f6c61742c206d696e5f6c6f6e2c206d61785f6c6f6e293b0a002700000044;
0x524f5020494e444558207075626c69632e6368616e6765736574735f62626f785f6964783b0a010100000000060000007075626c696300000000000101000000;
0x0008000000706f737467726573000500000066616c73650003000000323237000300000032323700030000003232370003000000323237000100000032000100;
0x00003200010000003200010000003200010000003200010000003200010000003200010000003200010000003200010000003200010000003200010000003200;
0x01000000320001000000320001000000320001000000320001000000320001000000320001000000320001000000320001000000320001000000320101000000;
0x000000000000fb0e000000000000000004000000313235390005000000313735383200180000006368616e6765736574735f636c6f7365645f61745f69647800;
0x05000000494e4445580004000000005400000043524541544520494e444558206368616e6765736574735f636c6f7365645f61745f696478204f4e207075626c;
0x69632e6368616e676573657473205553494e472062747265652028636c6f7365645f6174293b0a002c00000044524f5020494e444558207075626c69632e6368;
0x616e6765736574735f636c6f7365645f61745f6964783b0a010100000000060000007075626c6963000000000001010000000008000000706f73746772657300;
0x0500000066616c736500030000003232370101000000000000000000fc0e00000000000000000400000031323539000500000031373538330019000000636861;
0x6e6765736574735f637265617465645f61745f6964780005000000494e4445580004000000005600000043524541544520494e444558206368616e6765736574;
0x735f637265617465645f61745f696478204f4e207075626c69632e6368616e676573657473205553494e472062747265652028637265617465645f6174293b0a;
0x002d00000044524f5020494e444558207075626c69632e6368616e6765736574735f637265617465645f61745f6964783b0a010100000000060000007075626c;
0x6963000000000001010000000008000000706f737467726573000500000066616c736500030000003232370101000000000000000000ff0e0000000000000000;
0x04000000313235390005000000313735383400210000006368616e6765736574735f757365725f69645f637265617465645f61745f6964780005000000494e44;
0x45580004000000006700000043524541544520494e444558206368616e6765736574735f757365725f69645f637265617465645f61745f696478204f4e207075;
0x626c69632e6368616e676573657473205553494e472062747265652028757365725f69642c20637265617465645f6174293b0a003500000044524f5020494e44;
0x4558207075626c69632e6368616e6765736574735f757365725f69645f637265617465645f61745f6964783b0a010100000000060000007075626c6963000000;
0x000001010000000008000000706f737467726573000500000066616c7365000300000032323700030000003232370101000000000000000000000f0000000000;
0x00000004000000313235390005000000313735383500190000006368616e6765736574735f757365725f69645f69645f6964780005000000494e444558000400;
0x0000005700000043524541544520494e444558206368616e6765736574735f757365725f69645f69645f696478204f4e207075626c69632e6368616e67657365;
0x7473205553494e472062747265652028757365725f69642c206964293b0a002d00000044524f5020494e444558207075626c69632e6368616e6765736574735f;
0x757365725f69645f69645f6964783b0a010100000000060000007075626c6963000000000001010000000008000000706f737467726573000500000066616c73;
0x650003000000323237000300000032323701010000000000000000000b0f00000000000000000400000031323539000500000031373538360016000000637572;
0x72656e745f6e6f6465735f74696c655f6964780005000000494e4445580004000000005000000043524541544520494e4445582063757272656e745f6e6f6465;
0x735f74696c655f696478204f4e207075626c69632e63757272656e745f6e6f646573205553494e47206274726565202874696c65293b0a002a00000044524f50;
0x20494e444558207075626c69632e63757272656e745f6e6f6465735f74696c655f6964783b0a010100000000060000007075626c696300000000000101000000;
0x0008000000706f737467726573000500000066616c7365000300000032333301010000000000000000000c0f0000000000000000040000003132353900050000;
0x003137353837001b00000063757272656e745f6e6f6465735f74696d657374616d705f6964780005000000494e4445580004000000005c000000435245415445;
0x20494e4445582063757272656e745f6e6f6465735f74696d657374616d705f696478204f4e207075626c69632e63757272656e745f6e6f646573205553494e47;
0x20627472656520282274696d657374616d7022293b0a002f00000044524f5020494e444558207075626c69632e63757272656e745f6e6f6465735f74696d6573;
0x74616d705f6964783b0a010100000000060000007075626c6963000000000001010000000008000000706f737467726573000500000066616c73650003000000;
0x32333301010000000000000000000d0f0000000000000000040000003132353900050000003137353838002300000063757272656e745f72656c6174696f6e5f;
0x6d656d626572735f6d656d6265725f6964780005000000494e4445580004000000007a00000043524541544520494e4445582063757272656e745f72656c6174;
0x696f6e5f6d656d626572735f6d656d6265725f696478204f4e207075626c69632e63757272656e745f72656c6174696f6e5f6d656d62657273205553494e4720;
0x627472656520286d656d6265725f747970652c206d656d6265725f6964293b0a003700000044524f5020494e444558207075626c69632e63757272656e745f72;
0x656c6174696f6e5f6d656d626572735f6d656d6265725f6964783b0a010100000000060000007075626c6963000000000001010000000008000000706f737467;
0x726573000500000066616c7365000300000032333500030000003233350101000000000000000000140f00000000000000000400000031323539000500000031;
0x37353839001f00000063757272656e745f72656c6174696f6e735f74696d657374616d705f6964780005000000494e4445580004000000006400000043524541;
0x544520494e4445582063757272656e745f72656c6174696f6e735f74696d657374616d705f696478204f4e207075626c69632e63757272656e745f72656c6174;
0x696f6e73205553494e4720627472656520282274696d657374616d7022293b0a003300000044524f5020494e444558207075626c69632e63757272656e745f72;
0x656c6174696f6e735f74696d657374616d705f6964783b0a010100000000060000007075626c6963000000000001010000000008000000706f73746772657300;
0x0500000066616c736500030000003233370101000000000000000000150f0000000000000000040000003132353900050000003137353930001a000000637572;
0x72656e745f7761795f6e6f6465735f6e6f64655f6964780005000000494e4445580004000000005b00000043524541544520494e4445582063757272656e745f;
0x7761795f6e6f6465735f6e6f64655f696478204f4e207075626c69632e63757272656e745f7761795f6e6f646573205553494e4720627472656520286e6f6465;
0x5f6964293b0a002e00000044524f5020494e444558207075626c69632e63757272656e745f7761795f6e6f6465735f6e6f64655f6964783b0a01010000000006;
0x0000007075626c6963000000000001010000000008000000706f737467726573000500000066616c7365000300000032333901010000000000000000001c0f00;
0x00000000000000040000003132353900050000003137353931001a00000063757272656e745f776179735f74696d657374616d705f6964780005000000494e44;
0x45580004000000005a00000043524541544520494e4445582063757272656e745f776179735f74696d657374616d705f696478204f4e207075626c69632e6375;
0x7272656e745f77617973205553494e4720627472656520282274696d657374616d7022293b0a002e00000044524f5020494e444558207075626c69632e637572;
0x72656e745f776179735f74696d657374616d705f6964783b0a010100000000060000007075626c6963000000000001010000000008000000706f737467726573;
0x000500000066616c7365000300000032343101010000000000000000001f0f000000000000000004000000313235390005000000313735393200150000006465;
0x6c617965645f6a6f62735f7072696f726974790005000000494e4445580004000000005a00000043524541544520494e4445582064656c617965645f6a6f6273;
0x5f7072696f72697479204f4e207075626c69632e64656c617965645f6a6f6273205553494e4720627472656520287072696f726974792c2072756e5f6174293b;
0x0a002900000044524f5020494e444558207075626c69632e64656c617965645f6a6f62735f7072696f726974793b0a010100000000060000007075626c696300;
0x0000000001010000000008000000706f737467726573000500000066616c7365000300000032343300030000003234330101000000000000000000200f000000;
0x0000000000040000003132353900050000003137353933002600000064696172795f636f6d6d656e745f757365725f69645f637265617465645f61745f696e64;
0x65780005000000494e4445580004000000007000000043524541544520494e4445582064696172795f636f6d6d656e745f757365725f69645f63726561746564;
0x5f61745f696e646578204f4e207075626c69632e64696172795f636f6d6d656e7473205553494e472062747265652028757365725f69642c2063726561746564;
0x5f6174293b0a003a00000044524f5020494e444558207075626c69632e64696172795f636f6d6d656e745f757365725f69645f637265617465645f61745f696e;
0x6465783b0a010100000000060000007075626c6963000000000001010000000008000000706f737467726573000500000066616c736500030000003234350003;
0x0000003234350101000000000000000000210f0000000000000000040000003132353900050000003137353934001b00000064696172795f636f6d6d656e7473;
0x5f656e7472795f69645f6964780005000000494e4445580004000000006b00000043524541544520554e4951554520494e4445582064696172795f636f6d6d65;
0x6e74735f656e7472795f69645f696478204f4e207075626c69632e64696172795f636f6d6d656e7473205553494e47206274726565202864696172795f656e74;
0x72795f69642c206964293b0a002f00000044524f5020494e444558207075626c69632e64696172795f636f6d6d656e74735f656e7472795f69645f6964783b0a;
0x010100000000060000007075626c6963000000000001010000000008000000706f737467726573000500000066616c7365000300000032343500030000003234;
0x350101000000000000000000260f0000000000000000040000003132353900050000003137353935001c00000064696172795f656e7472795f63726561746564;
0x5f61745f696e6465780005000000494e4445580004000000005c00000043524541544520494e4445582064696172795f656e7472795f637265617465645f6174;
0x5f696e646578204f4e207075626c69632e64696172795f656e7472696573205553494e472062747265652028637265617465645f6174293b0a00300000004452;
0x4f5020494e444558207075626c69632e64696172795f656e7472795f637265617465645f61745f696e6465783b0a010100000000060000007075626c69630000;
0x00000001010000000008000000706f737467726573000500000066616c736500030000003234370101000000000000000000270f000000000000000004000000;
0x3132353900050000003137353936002a00000064696172795f656e7472795f6c616e67756167655f636f64655f637265617465645f61745f696e646578000500;
0x0000494e4445580004000000007900000043524541544520494e4445582064696172795f656e7472795f6c616e67756167655f636f64655f637265617465645f;
0x61745f696e646578204f4e207075626c69632e64696172795f656e7472696573205553494e4720627472656520286c616e67756167655f636f64652c20637265;
0x617465645f6174293b0a003e00000044524f5020494e444558207075626c69632e64696172795f656e7472795f6c616e67756167655f636f64655f6372656174;
0x65645f61745f696e6465783b0a010100000000060000007075626c6963000000000001010000000008000000706f737467726573000500000066616c73650003;
0x00000032343700030000003234370101000000000000000000280f0000000000000000040000003132353900050000003137353937002400000064696172795f;
0x656e7472795f757365725f69645f637265617465645f61745f696e6465780005000000494e4445580004000000006d00000043524541544520494e4445582064;
0x696172795f656e7472795f757365725f69645f637265617465645f61745f696e646578204f4e207075626c69632e64696172795f656e7472696573205553494e;
0x472062747265652028757365725f69642c20637265617465645f6174293b0a003800000044524f5020494e444558207075626c69632e64696172795f656e7472;
0x795f757365725f69645f637265617465645f61745f696e6465783b0a010100000000060000007075626c6963000000000001010000000008000000706f737467;
0x726573000500000066616c7365000300000032343700030000003234370101000000000000000000320f00000000000000000400000031323539000500000031;
0x3735393800170000006770785f66696c655f746167735f67707869645f6964780005000000494e4445580004000000005300000043524541544520494e444558;
0x206770785f66696c655f746167735f67707869645f696478204f4e207075626c69632e6770785f66696c655f74616773205553494e4720627472656520286770;
0x785f6964293b0a002b00000044524f5020494e444558207075626c69632e6770785f66696c655f746167735f67707869645f6964783b0a010100000000060000;
0x007075626c6963000000000001010000000008000000706f737467726573000500000066616c736500030000003235330101000000000000000000350f000000;
0x000000000004000000313235390005000000313735393900150000006770785f66696c655f746167735f7461675f6964780005000000494e4445580004000000;
0x004e00000043524541544520494e444558206770785f66696c655f746167735f7461675f696478204f4e207075626c69632e6770785f66696c655f7461677320;
0x5553494e472062747265652028746167293b0a002900000044524f5020494e444558207075626c69632e6770785f66696c655f746167735f7461675f6964783b;
0x0a010100000000060000007075626c6963000000000001010000000008000000706f737467726573000500000066616c73650003000000323533010100000000;
0x0000000000380f000000000000000004000000313235390005000000313736303000170000006770785f66696c65735f74696d657374616d705f696478000500;
0x0000494e4445580004000000005400000043524541544520494e444558206770785f66696c65735f74696d657374616d705f696478204f4e207075626c69632e;
0x6770785f66696c6573205553494e4720627472656520282274696d657374616d7022293b0a002b00000044524f5020494e444558207075626c69632e6770785f;
0x66696c65735f74696d657374616d705f6964783b0a010100000000060000007075626c6963000000000001010000000008000000706f73746772657300050000;
0x0066616c736500030000003235350101000000000000000000390f000000000000000004000000313235390005000000313736303100150000006770785f6669;
0x6c65735f757365725f69645f6964780005000000494e4445580004000000004e00000043524541544520494e444558206770785f66696c65735f757365725f69;
0x645f696478204f4e207075626c69632e6770785f66696c6573205553494e472062747265652028757365725f6964293b0a002900000044524f5020494e444558;
0x207075626c69632e6770785f66696c65735f757365725f69645f6964783b0a010100000000060000007075626c6963000000000001010000000008000000706f].
Definition toc_words_8 : list Z := [
0x737467726573000500000066616c7365000300000032353501010000000000000000003a0f000000000000000004000000313235390005000000313736303200;
0x200000006770785f66696c65735f76697369626c655f7669736962696c6974795f6964780005000000494e444558000400000000650000004352454154452049;
0x4e444558206770785f66696c65735f76697369626c655f7669736962696c6974795f696478204f4e207075626c69632e6770785f66696c6573205553494e4720;
0x6274726565202876697369626c652c207669736962696c697479293b0a003400000044524f5020494e444558207075626c69632e6770785f66696c65735f7669;
0x7369626c655f7669736962696c6974795f6964783b0a010100000000060000007075626c6963000000000001010000000008000000706f737467726573000500;
0x000066616c7365000300000032353500030000003235350101000000000000000000e60e00000000000000000400000031323539000500000031373630330015;
0x000000696e6465785f61636c735f6f6e5f616464726573730005000000494e4445580004000000005100000043524541544520494e44455820696e6465785f61;
0x636c735f6f6e5f61646472657373204f4e207075626c69632e61636c73205553494e47206769737420286164647265737320696e65745f6f7073293b0a002900;
0x000044524f5020494e444558207075626c69632e696e6465785f61636c735f6f6e5f616464726573733b0a010100000000060000007075626c69630000000000;
0x01010000000008000000706f737467726573000500000066616c736500030000003231350101000000000000000000e70e000000000000000004000000313235;
0x39000500000031373630340014000000696e6465785f61636c735f6f6e5f646f6d61696e0005000000494e444558000400000000470000004352454154452049;
0x4e44455820696e6465785f61636c735f6f6e5f646f6d61696e204f4e207075626c69632e61636c73205553494e472062747265652028646f6d61696e293b0a00;
0x2800000044524f5020494e444558207075626c69632e696e6465785f61636c735f6f6e5f646f6d61696e3b0a010100000000060000007075626c696300000000;
0x0001010000000008000000706f737467726573000500000066616c736500030000003231350101000000000000000000e80e0000000000000000040000003132;
0x3539000500000031373630350010000000696e6465785f61636c735f6f6e5f6d780005000000494e4445580004000000003f00000043524541544520494e4445;
0x5820696e6465785f61636c735f6f6e5f6d78204f4e207075626c69632e61636c73205553494e4720627472656520286d78293b0a002400000044524f5020494e;
0x444558207075626c69632e696e6465785f61636c735f6f6e5f6d783b0a010100000000060000007075626c6963000000000001010000000008000000706f7374;
0x67726573000500000066616c736500030000003231350101000000000000000000eb0e0000000000000000040000003132353900050000003137363036002b00;
0x0000696e6465785f6163746976655f73746f726167655f6174746163686d656e74735f6f6e5f626c6f625f69640005000000494e444558000400000000750000;
0x0043524541544520494e44455820696e6465785f6163746976655f73746f726167655f6174746163686d656e74735f6f6e5f626c6f625f6964204f4e20707562;
0x6c69632e6163746976655f73746f726167655f6174746163686d656e7473205553494e472062747265652028626c6f625f6964293b0a003f00000044524f5020;
0x494e444558207075626c69632e696e6465785f6163746976655f73746f726167655f6174746163686d656e74735f6f6e5f626c6f625f69643b0a010100000000;
0x060000007075626c6963000000000001010000000008000000706f737467726573000500000066616c736500030000003231370101000000000000000000ec0e;
0x0000000000000000040000003132353900050000003137363037002b000000696e6465785f6163746976655f73746f726167655f6174746163686d656e74735f;
0x756e697175656e6573730005000000494e4445580004000000009a00000043524541544520554e4951554520494e44455820696e6465785f6163746976655f73;
0x746f726167655f6174746163686d656e74735f756e697175656e657373204f4e207075626c69632e6163746976655f73746f726167655f6174746163686d656e;
0x7473205553494e4720627472656520287265636f72645f747970652c207265636f72645f69642c206e616d652c20626c6f625f6964293b0a003f00000044524f;
0x5020494e444558207075626c69632e696e6465785f6163746976655f73746f726167655f6174746163686d656e74735f756e697175656e6573733b0a01010000;
0x0000060000007075626c6963000000000001010000000008000000706f737467726573000500000066616c736500030000003231370003000000323137000300;
0x000032313700030000003231370101000000000000000000ef0e00000000000000000400000031323539000500000031373630380021000000696e6465785f61;
0x63746976655f73746f726167655f626c6f62735f6f6e5f6b65790005000000494e4445580004000000006800000043524541544520554e4951554520494e4445;
0x5820696e6465785f6163746976655f73746f726167655f626c6f62735f6f6e5f6b6579204f4e207075626c69632e6163746976655f73746f726167655f626c6f;
0x6273205553494e4720627472656520286b6579293b0a003500000044524f5020494e444558207075626c69632e696e6465785f6163746976655f73746f726167;
0x655f626c6f62735f6f6e5f6b65793b0a010100000000060000007075626c6963000000000001010000000008000000706f737467726573000500000066616c73;
0x6500030000003231390101000000000000000000f20e0000000000000000040000003132353900050000003137363039002f000000696e6465785f6163746976;
0x655f73746f726167655f76617269616e745f7265636f7264735f756e697175656e6573730005000000494e444558000400000000960000004352454154452055;
0x4e4951554520494e44455820696e6465785f6163746976655f73746f726167655f76617269616e745f7265636f7264735f756e697175656e657373204f4e2070;
0x75626c69632e6163746976655f73746f726167655f76617269616e745f7265636f726473205553494e472062747265652028626c6f625f69642c207661726961;
0x74696f6e5f646967657374293b0a004300000044524f5020494e444558207075626c69632e696e6465785f6163746976655f73746f726167655f76617269616e;
0x745f7265636f7264735f756e697175656e6573733b0a010100000000060000007075626c6963000000000001010000000008000000706f737467726573000500;
0x000066616c7365000300000032323100030000003232310101000000000000000000f70e00000000000000000400000031323539000500000031373631300037;
0x000000696e6465785f6368616e67657365745f636f6d6d656e74735f6f6e5f6368616e67657365745f69645f616e645f637265617465645f6174000500000049;
0x4e4445580004000000008a00000043524541544520494e44455820696e6465785f6368616e67657365745f636f6d6d656e74735f6f6e5f6368616e6765736574;
0x5f69645f616e645f637265617465645f6174204f4e207075626c69632e6368616e67657365745f636f6d6d656e7473205553494e472062747265652028636861;
0x6e67657365745f69642c20637265617465645f6174293b0a004b00000044524f5020494e444558207075626c69632e696e6465785f6368616e67657365745f63;
0x6f6d6d656e74735f6f6e5f6368616e67657365745f69645f616e645f637265617465645f61743b0a010100000000060000007075626c69630000000000010100;
0x00000008000000706f737467726573000500000066616c7365000300000032323400030000003232340101000000000000000000f80e00000000000000000400;
0x000031323539000500000031373631310026000000696e6465785f6368616e67657365745f636f6d6d656e74735f6f6e5f637265617465645f61740005000000;
0x494e4445580004000000006b00000043524541544520494e44455820696e6465785f6368616e67657365745f636f6d6d656e74735f6f6e5f637265617465645f;
0x6174204f4e207075626c69632e6368616e67657365745f636f6d6d656e7473205553494e472062747265652028637265617465645f6174293b0a003a00000044;
0x524f5020494e444558207075626c69632e696e6465785f6368616e67657365745f636f6d6d656e74735f6f6e5f637265617465645f61743b0a01010000000006;
0x0000007075626c6963000000000001010000000008000000706f737467726573000500000066616c736500030000003232340101000000000000000000010f00;
0x00000000000000040000003132353900050000003137363132002c000000696e6465785f6368616e6765736574735f73756273637269626572735f6f6e5f6368;
0x616e67657365745f69640005000000494e4445580004000000007700000043524541544520494e44455820696e6465785f6368616e6765736574735f73756273;
0x637269626572735f6f6e5f6368616e67657365745f6964204f4e207075626c69632e6368616e6765736574735f7375627363726962657273205553494e472062;
0x7472656520286368616e67657365745f6964293b0a004000000044524f5020494e444558207075626c69632e696e6465785f6368616e6765736574735f737562;
0x73637269626572735f6f6e5f6368616e67657365745f69643b0a010100000000060000007075626c6963000000000001010000000008000000706f7374677265;
0x73000500000066616c736500030000003232390101000000000000000000020f0000000000000000040000003132353900050000003137363133003e00000069;
0x6e6465785f6368616e6765736574735f73756273637269626572735f6f6e5f737562736372696265725f69645f616e645f6368616e67657365745f6964000500;
0x0000494e4445580004000000009f00000043524541544520554e4951554520494e44455820696e6465785f6368616e6765736574735f73756273637269626572;
0x735f6f6e5f737562736372696265725f69645f616e645f6368616e67657365745f6964204f4e207075626c69632e6368616e6765736574735f73756273637269;
0x62657273205553494e472062747265652028737562736372696265725f69642c206368616e67657365745f6964293b0a005200000044524f5020494e44455820;
0x7075626c69632e696e6465785f6368616e6765736574735f73756273637269626572735f6f6e5f737562736372696265725f69645f616e645f6368616e676573;
0x65745f69643b0a010100000000060000007075626c6963000000000001010000000008000000706f737467726573000500000066616c73650003000000323239;
0x00030000003232390101000000000000000000050f00000000000000000400000031323539000500000031373631340020000000696e6465785f636c69656e74;
0x5f6170706c69636174696f6e735f6f6e5f6b65790005000000494e4445580004000000006600000043524541544520554e4951554520494e44455820696e6465;
0x785f636c69656e745f6170706c69636174696f6e735f6f6e5f6b6579204f4e207075626c69632e636c69656e745f6170706c69636174696f6e73205553494e47;
0x20627472656520286b6579293b0a003400000044524f5020494e444558207075626c69632e696e6465785f636c69656e745f6170706c69636174696f6e735f6f;
0x6e5f6b65793b0a010100000000060000007075626c6963000000000001010000000008000000706f737467726573000500000066616c73650003000000323330;
0x0101000000000000000000060f00000000000000000400000031323539000500000031373631350024000000696e6465785f636c69656e745f6170706c696361;
0x74696f6e735f6f6e5f757365725f69640005000000494e4445580004000000006700000043524541544520494e44455820696e6465785f636c69656e745f6170;
0x706c69636174696f6e735f6f6e5f757365725f6964204f4e207075626c69632e636c69656e745f6170706c69636174696f6e73205553494e4720627472656520;
0x28757365725f6964293b0a003800000044524f5020494e444558207075626c69632e696e6465785f636c69656e745f6170706c69636174696f6e735f6f6e5f75;
0x7365725f69643b0a010100000000060000007075626c6963000000000001010000000008000000706f737467726573000500000066616c736500030000003233;
0x3001010000000000000000002b0f00000000000000000400000031323539000500000031373631360031000000696e6465785f64696172795f656e7472795f73;
0x7562736372697074696f6e735f6f6e5f64696172795f656e7472795f69640005000000494e4445580004000000008100000043524541544520494e4445582069;
0x6e6465785f64696172795f656e7472795f737562736372697074696f6e735f6f6e5f64696172795f656e7472795f6964204f4e207075626c69632e6469617279;
0x5f656e7472795f737562736372697074696f6e73205553494e47206274726565202864696172795f656e7472795f6964293b0a004500000044524f5020494e44;
0x4558207075626c69632e696e6465785f64696172795f656e7472795f737562736372697074696f6e735f6f6e5f64696172795f656e7472795f69643b0a010100;
0x000000060000007075626c6963000000000001010000000008000000706f737467726573000500000066616c7365000300000032343901010000000000000000;
0x002e0f00000000000000000400000031323539000500000031373631370027000000696e6465785f667269656e64735f6f6e5f757365725f69645f616e645f63;
0x7265617465645f61740005000000494e4445580004000000006a00000043524541544520494e44455820696e6465785f667269656e64735f6f6e5f757365725f;
0x69645f616e645f637265617465645f6174204f4e207075626c69632e667269656e6473205553494e472062747265652028757365725f69642c20637265617465;
0x645f6174293b0a003b00000044524f5020494e444558207075626c69632e696e6465785f667269656e64735f6f6e5f757365725f69645f616e645f6372656174;
0x65645f61743b0a010100000000060000007075626c6963000000000001010000000008000000706f737467726573000500000066616c73650003000000323530;
0x000300000032353001010000000000000000003b0f00000000000000000400000031323539000500000031373631380020000000696e6465785f69737375655f;
0x636f6d6d656e74735f6f6e5f69737375655f69640005000000494e4445580004000000005f00000043524541544520494e44455820696e6465785f6973737565;
0x5f636f6d6d656e74735f6f6e5f69737375655f6964204f4e207075626c69632e69737375655f636f6d6d656e7473205553494e47206274726565202869737375;
0x655f6964293b0a003400000044524f5020494e444558207075626c69632e696e6465785f69737375655f636f6d6d656e74735f6f6e5f69737375655f69643b0a;
0x010100000000060000007075626c6963000000000001010000000008000000706f737467726573000500000066616c7365000300000032353701010000000000;
0x000000003c0f0000000000000000040000003132353900050000003137363139001f000000696e6465785f69737375655f636f6d6d656e74735f6f6e5f757365;
0x725f69640005000000494e4445580004000000005d00000043524541544520494e44455820696e6465785f69737375655f636f6d6d656e74735f6f6e5f757365;
0x725f6964204f4e207075626c69632e69737375655f636f6d6d656e7473205553494e472062747265652028757365725f6964293b0a003300000044524f502049;
0x4e444558207075626c69632e696e6465785f69737375655f636f6d6d656e74735f6f6e5f757365725f69643b0a010100000000060000007075626c6963000000;
0x000001010000000008000000706f737467726573000500000066616c7365000300000032353701010000000000000000003f0f00000000000000000400000031;
0x32353900050000003137363230001d000000696e6465785f6973737565735f6f6e5f61737369676e65645f726f6c650005000000494e44455800040000000059;
0x00000043524541544520494e44455820696e6465785f6973737565735f6f6e5f61737369676e65645f726f6c65204f4e207075626c69632e6973737565732055;
0x53494e47206274726565202861737369676e65645f726f6c65293b0a003100000044524f5020494e444558207075626c69632e696e6465785f6973737565735f;
0x6f6e5f61737369676e65645f726f6c653b0a010100000000060000007075626c6963000000000001010000000008000000706f73746772657300050000006661;
0x6c736500030000003235390101000000000000000000400f00000000000000000400000031323539000500000031373632310031000000696e6465785f697373;
0x7565735f6f6e5f7265706f727461626c655f747970655f616e645f7265706f727461626c655f69640005000000494e4445580004000000007e00000043524541;
0x544520494e44455820696e6465785f6973737565735f6f6e5f7265706f727461626c655f747970655f616e645f7265706f727461626c655f6964204f4e207075;
0x626c69632e697373756573205553494e4720627472656520287265706f727461626c655f747970652c207265706f727461626c655f6964293b0a004500000044;
0x524f5020494e444558207075626c69632e696e6465785f6973737565735f6f6e5f7265706f727461626c655f747970655f616e645f7265706f727461626c655f;
0x69643b0a010100000000060000007075626c6963000000000001010000000008000000706f737467726573000500000066616c73650003000000323539000300;
0x00003235390101000000000000000000410f00000000000000000400000031323539000500000031373632320020000000696e6465785f6973737565735f6f6e;
0x5f7265706f727465645f757365725f69640005000000494e4445580004000000005f00000043524541544520494e44455820696e6465785f6973737565735f6f;
0x6e5f7265706f727465645f757365725f6964204f4e207075626c69632e697373756573205553494e4720627472656520287265706f727465645f757365725f69;
0x64293b0a003400000044524f5020494e444558207075626c69632e696e6465785f6973737565735f6f6e5f7265706f727465645f757365725f69643b0a010100;
0x000000060000007075626c6963000000000001010000000008000000706f737467726573000500000066616c7365000300000032353901010000000000000000;
0x00420f00000000000000000400000031323539000500000031373632330016000000696e6465785f6973737565735f6f6e5f7374617475730005000000494e44;
0x45580004000000004b00000043524541544520494e44455820696e6465785f6973737565735f6f6e5f737461747573204f4e207075626c69632e697373756573;
0x205553494e472062747265652028737461747573293b0a002a00000044524f5020494e444558207075626c69632e696e6465785f6973737565735f6f6e5f7374;
0x617475733b0a010100000000060000007075626c6963000000000001010000000008000000706f737467726573000500000066616c7365000300000032353901;
0x01000000000000000000430f0000000000000000040000003132353900050000003137363234001a000000696e6465785f6973737565735f6f6e5f7570646174;
0x65645f62790005000000494e4445580004000000005300000043524541544520494e44455820696e6465785f6973737565735f6f6e5f757064617465645f6279;
0x204f4e207075626c69632e697373756573205553494e472062747265652028757064617465645f6279293b0a002e00000044524f5020494e444558207075626c;
0x69632e696e6465785f6973737565735f6f6e5f757064617465645f62793b0a010100000000060000007075626c6963000000000001010000000008000000706f;
0x737467726573000500000066616c736500030000003235390101000000000000000000530f000000000000000004000000313235390005000000313736323500;
0x2f000000696e6465785f6e6f74655f636f6d6d656e74735f6f6e5f617574686f725f69645f616e645f637265617465645f61740005000000494e444558000400;
0x0000007a00000043524541544520494e44455820696e6465785f6e6f74655f636f6d6d656e74735f6f6e5f617574686f725f69645f616e645f63726561746564;
0x5f6174204f4e207075626c69632e6e6f74655f636f6d6d656e7473205553494e472062747265652028617574686f725f69642c20637265617465645f6174293b;
0x0a004300000044524f5020494e444558207075626c69632e696e6465785f6e6f74655f636f6d6d656e74735f6f6e5f617574686f725f69645f616e645f637265;
0x617465645f61743b0a010100000000060000007075626c6963000000000001010000000008000000706f737467726573000500000066616c7365000300000032;
0x363600030000003236360101000000000000000000540f0000000000000000040000003132353900050000003137363236001b000000696e6465785f6e6f7465;
0x5f636f6d6d656e74735f6f6e5f626f64790005000000494e4445580004000000007600000043524541544520494e44455820696e6465785f6e6f74655f636f6d;
0x6d656e74735f6f6e5f626f6479204f4e207075626c69632e6e6f74655f636f6d6d656e7473205553494e472067696e2028746f5f7473766563746f722827656e;
0x676c697368273a3a726567636f6e6669672c20626f647929293b0a002f00000044524f5020494e444558207075626c69632e696e6465785f6e6f74655f636f6d;
0x6d656e74735f6f6e5f626f64793b0a010100000000060000007075626c6963000000000001010000000008000000706f737467726573000500000066616c7365;
0x000300000032363600030000003236360101000000000000000000550f00000000000000000400000031323539000500000031373632370021000000696e6465;
0x785f6e6f74655f636f6d6d656e74735f6f6e5f637265617465645f61740005000000494e4445580004000000006100000043524541544520494e44455820696e;
0x6465785f6e6f74655f636f6d6d656e74735f6f6e5f637265617465645f6174204f4e207075626c69632e6e6f74655f636f6d6d656e7473205553494e47206274;
0x7265652028637265617465645f6174293b0a003500000044524f5020494e444558207075626c69632e696e6465785f6e6f74655f636f6d6d656e74735f6f6e5f;
0x637265617465645f61743b0a010100000000060000007075626c6963000000000001010000000008000000706f737467726573000500000066616c7365000300;
0x000032363601010000000000000000005e0f0000000000000000040000003132353900050000003137363238002b000000696e6465785f6f617574685f616363;
0x6573735f6772616e74735f6f6e5f6170706c69636174696f6e5f69640005000000494e4445580004000000007500000043524541544520494e44455820696e64;
0x65785f6f617574685f6163636573735f6772616e74735f6f6e5f6170706c69636174696f6e5f6964204f4e207075626c69632e6f617574685f6163636573735f;
0x6772616e7473205553494e4720627472656520286170706c69636174696f6e5f6964293b0a003f00000044524f5020494e444558207075626c69632e696e6465;
0x785f6f617574685f6163636573735f6772616e74735f6f6e5f6170706c69636174696f6e5f69643b0a010100000000060000007075626c696300000000000101;
0x0000000008000000706f737467726573000500000066616c7365000300000032373001010000000000000000005f0f0000000000000000040000003132353900;
0x050000003137363239002e000000696e6465785f6f617574685f6163636573735f6772616e74735f6f6e5f7265736f757263655f6f776e65725f696400050000;
0x00494e4445580004000000007b00000043524541544520494e44455820696e6465785f6f617574685f6163636573735f6772616e74735f6f6e5f7265736f7572;
0x63655f6f776e65725f6964204f4e207075626c69632e6f617574685f6163636573735f6772616e7473205553494e4720627472656520287265736f757263655f;
0x6f776e65725f6964293b0a004200000044524f5020494e444558207075626c69632e696e6465785f6f617574685f6163636573735f6772616e74735f6f6e5f72;
0x65736f757263655f6f776e65725f69643b0a010100000000060000007075626c6963000000000001010000000008000000706f73746772657300050000006661;
0x6c736500030000003237300101000000000000000000600f00000000000000000400000031323539000500000031373633300022000000696e6465785f6f6175;
0x74685f6163636573735f6772616e74735f6f6e5f746f6b656e0005000000494e4445580004000000006a00000043524541544520554e4951554520494e444558;
0x20696e6465785f6f617574685f6163636573735f6772616e74735f6f6e5f746f6b656e204f4e207075626c69632e6f617574685f6163636573735f6772616e74;
0x73205553494e472062747265652028746f6b656e293b0a003600000044524f5020494e444558207075626c69632e696e6465785f6f617574685f616363657373;
0x5f6772616e74735f6f6e5f746f6b656e3b0a010100000000060000007075626c6963000000000001010000000008000000706f73746772657300050000006661;
0x6c736500030000003237300101000000000000000000630f0000000000000000040000003132353900050000003137363331002b000000696e6465785f6f6175;
0x74685f6163636573735f746f6b656e735f6f6e5f6170706c69636174696f6e5f69640005000000494e4445580004000000007500000043524541544520494e44;
0x455820696e6465785f6f617574685f6163636573735f746f6b656e735f6f6e5f6170706c69636174696f6e5f6964204f4e207075626c69632e6f617574685f61;
0x63636573735f746f6b656e73205553494e4720627472656520286170706c69636174696f6e5f6964293b0a003f00000044524f5020494e444558207075626c69;
0x632e696e6465785f6f617574685f6163636573735f746f6b656e735f6f6e5f6170706c69636174696f6e5f69643b0a010100000000060000007075626c696300;
0x0000000001010000000008000000706f737467726573000500000066616c736500030000003237320101000000000000000000640f0000000000000000040000;
0x003132353900050000003137363332002a000000696e6465785f6f617574685f6163636573735f746f6b656e735f6f6e5f726566726573685f746f6b656e0005;
0x000000494e4445580004000000007a00000043524541544520554e4951554520494e44455820696e6465785f6f617574685f6163636573735f746f6b656e735f;
0x6f6e5f726566726573685f746f6b656e204f4e207075626c69632e6f617574685f6163636573735f746f6b656e73205553494e47206274726565202872656672;
0x6573685f746f6b656e293b0a003e00000044524f5020494e444558207075626c69632e696e6465785f6f617574685f6163636573735f746f6b656e735f6f6e5f;
0x726566726573685f746f6b656e3b0a010100000000060000007075626c6963000000000001010000000008000000706f737467726573000500000066616c7365;
0x00030000003237320101000000000000000000650f0000000000000000040000003132353900050000003137363333002e000000696e6465785f6f617574685f;
0x6163636573735f746f6b656e735f6f6e5f7265736f757263655f6f776e65725f69640005000000494e4445580004000000007b00000043524541544520494e44;
0x455820696e6465785f6f617574685f6163636573735f746f6b656e735f6f6e5f7265736f757263655f6f776e65725f6964204f4e207075626c69632e6f617574;
0x685f6163636573735f746f6b656e73205553494e4720627472656520287265736f757263655f6f776e65725f6964293b0a004200000044524f5020494e444558;
0x207075626c69632e696e6465785f6f617574685f6163636573735f746f6b656e735f6f6e5f7265736f757263655f6f776e65725f69643b0a0101000000000600;
0x00007075626c6963000000000001010000000008000000706f737467726573000500000066616c736500030000003237320101000000000000000000660f0000;
0x0000000000000400000031323539000500000031373633340022000000696e6465785f6f617574685f6163636573735f746f6b656e735f6f6e5f746f6b656e00;
0x05000000494e4445580004000000006a00000043524541544520554e4951554520494e44455820696e6465785f6f617574685f6163636573735f746f6b656e73;
0x5f6f6e5f746f6b656e204f4e207075626c69632e6f617574685f6163636573735f746f6b656e73205553494e472062747265652028746f6b656e293b0a003600;
0x000044524f5020494e444558207075626c69632e696e6465785f6f617574685f6163636573735f746f6b656e735f6f6e5f746f6b656e3b0a0101000000000600;
0x00007075626c6963000000000001010000000008000000706f737467726573000500000066616c736500030000003237320101000000000000000000690f0000;
0x0000000000000400000031323539000500000031373633350033000000696e6465785f6f617574685f6170706c69636174696f6e735f6f6e5f6f776e65725f74;
0x7970655f616e645f6f776e65725f69640005000000494e4445580004000000008200000043524541544520494e44455820696e6465785f6f617574685f617070;
0x6c69636174696f6e735f6f6e5f6f776e65725f747970655f616e645f6f776e65725f6964204f4e207075626c69632e6f617574685f6170706c69636174696f6e;
0x73205553494e4720627472656520286f776e65725f747970652c206f776e65725f6964293b0a004700000044524f5020494e444558207075626c69632e696e64;
0x65785f6f617574685f6170706c69636174696f6e735f6f6e5f6f776e65725f747970655f616e645f6f776e65725f69643b0a010100000000060000007075626c;
0x6963000000000001010000000008000000706f737467726573000500000066616c73650003000000323734000300000032373401010000000000000000006a0f;
0x0000000000000000040000003132353900050000003137363336001f000000696e6465785f6f617574685f6170706c69636174696f6e735f6f6e5f7569640005;
0x000000494e4445580004000000006400000043524541544520554e4951554520494e44455820696e6465785f6f617574685f6170706c69636174696f6e735f6f;
0x6e5f756964204f4e207075626c69632e6f617574685f6170706c69636174696f6e73205553494e472062747265652028756964293b0a003300000044524f5020;
0x494e444558207075626c69632e696e6465785f6f617574685f6170706c69636174696f6e735f6f6e5f7569643b0a010100000000060000007075626c69630000;
0x00000001010000000008000000706f737467726573000500000066616c7365000300000032373401010000000000000000006d0f000000000000000004000000;
0x31323539000500000031373633370029000000696e6465785f6f617574685f6e6f6e6365735f6f6e5f6e6f6e63655f616e645f74696d657374616d7000050000;
0x00494e4445580004000000007700000043524541544520554e4951554520494e44455820696e6465785f6f617574685f6e6f6e6365735f6f6e5f6e6f6e63655f;
0x616e645f74696d657374616d70204f4e207075626c69632e6f617574685f6e6f6e636573205553494e4720627472656520286e6f6e63652c202274696d657374;
0x616d7022293b0a003d00000044524f5020494e444558207075626c69632e696e6465785f6f617574685f6e6f6e6365735f6f6e5f6e6f6e63655f616e645f7469;
0x6d657374616d703b0a010100000000060000007075626c6963000000000001010000000008000000706f737467726573000500000066616c7365000300000032;
0x373600030000003237360101000000000000000000700f0000000000000000040000003132353900050000003137363338001b000000696e6465785f6f617574;
0x685f746f6b656e735f6f6e5f746f6b656e0005000000494e4445580004000000005c00000043524541544520554e4951554520494e44455820696e6465785f6f;
0x617574685f746f6b656e735f6f6e5f746f6b656e204f4e207075626c69632e6f617574685f746f6b656e73205553494e472062747265652028746f6b656e293b;
0x0a002f00000044524f5020494e444558207075626c69632e696e6465785f6f617574685f746f6b656e735f6f6e5f746f6b656e3b0a0101000000000600000070;
0x75626c6963000000000001010000000008000000706f737467726573000500000066616c736500030000003237380101000000000000000000710f0000000000;
0x000000040000003132353900050000003137363339001d000000696e6465785f6f617574685f746f6b656e735f6f6e5f757365725f69640005000000494e4445;
0x580004000000005900000043524541544520494e44455820696e6465785f6f617574685f746f6b656e735f6f6e5f757365725f6964204f4e207075626c69632e;
0x6f617574685f746f6b656e73205553494e472062747265652028757365725f6964293b0a003100000044524f5020494e444558207075626c69632e696e646578;
0x5f6f617574685f746f6b656e735f6f6e5f757365725f69643b0a010100000000060000007075626c6963000000000001010000000008000000706f7374677265;
0x73000500000066616c7365000300000032373801010000000000000000007f0f0000000000000000040000003132353900050000003137363430001900000069;
0x6e6465785f7265706f7274735f6f6e5f69737375655f69640005000000494e4445580004000000005100000043524541544520494e44455820696e6465785f72;
0x65706f7274735f6f6e5f69737375655f6964204f4e207075626c69632e7265706f727473205553494e47206274726565202869737375655f6964293b0a002d00].
Definition toc_words_9 : list Z := [
0x000044524f5020494e444558207075626c69632e696e6465785f7265706f7274735f6f6e5f69737375655f69643b0a010100000000060000007075626c696300;
0x0000000001010000000008000000706f737467726573000500000066616c736500030000003238350101000000000000000000800f0000000000000000040000;
0x0031323539000500000031373634310018000000696e6465785f7265706f7274735f6f6e5f757365725f69640005000000494e4445580004000000004f000000;
0x43524541544520494e44455820696e6465785f7265706f7274735f6f6e5f757365725f6964204f4e207075626c69632e7265706f727473205553494e47206274;
0x7265652028757365725f6964293b0a002c00000044524f5020494e444558207075626c69632e696e6465785f7265706f7274735f6f6e5f757365725f69643b0a;
0x010100000000060000007075626c6963000000000001010000000008000000706f737467726573000500000066616c7365000300000032383501010000000000;
0x00000000850f0000000000000000040000003132353900050000003137363432001c000000696e6465785f757365725f626c6f636b735f6f6e5f757365725f69;
0x640005000000494e4445580004000000005700000043524541544520494e44455820696e6465785f757365725f626c6f636b735f6f6e5f757365725f6964204f;
0x4e207075626c69632e757365725f626c6f636b73205553494e472062747265652028757365725f6964293b0a003000000044524f5020494e444558207075626c;
0x69632e696e6465785f757365725f626c6f636b735f6f6e5f757365725f69643b0a010100000000060000007075626c6963000000000001010000000008000000;
0x706f737467726573000500000066616c736500030000003238380101000000000000000000480f00000000000000000400000031323539000500000031373634;
0x3300190000006d657373616765735f66726f6d5f757365725f69645f6964780005000000494e4445580004000000005600000043524541544520494e44455820;
0x6d657373616765735f66726f6d5f757365725f69645f696478204f4e207075626c69632e6d65737361676573205553494e47206274726565202866726f6d5f75;
0x7365725f6964293b0a002d00000044524f5020494e444558207075626c69632e6d657373616765735f66726f6d5f757365725f69645f6964783b0a0101000000;
0x00060000007075626c6963000000000001010000000008000000706f737467726573000500000066616c7365000300000032363201010000000000000000004b;
0x0f000000000000000004000000313235390005000000313736343400170000006d657373616765735f746f5f757365725f69645f6964780005000000494e4445;
0x580004000000005200000043524541544520494e444558206d657373616765735f746f5f757365725f69645f696478204f4e207075626c69632e6d6573736167;
0x6573205553494e472062747265652028746f5f757365725f6964293b0a002b00000044524f5020494e444558207075626c69632e6d657373616765735f746f5f;
0x757365725f69645f6964783b0a010100000000060000007075626c6963000000000001010000000008000000706f737467726573000500000066616c73650003;
0x00000032363201010000000000000000004e0f000000000000000004000000313235390005000000313736343500160000006e6f6465735f6368616e67657365;
0x745f69645f6964780005000000494e4445580004000000005000000043524541544520494e444558206e6f6465735f6368616e67657365745f69645f69647820;
0x4f4e207075626c69632e6e6f646573205553494e4720627472656520286368616e67657365745f6964293b0a002a00000044524f5020494e444558207075626c;
0x69632e6e6f6465735f6368616e67657365745f69645f6964783b0a010100000000060000007075626c6963000000000001010000000008000000706f73746772;
0x6573000500000066616c736500030000003236350101000000000000000000510f0000000000000000040000003132353900050000003137363436000e000000;
0x6e6f6465735f74696c655f6964780005000000494e4445580004000000004000000043524541544520494e444558206e6f6465735f74696c655f696478204f4e;
0x207075626c69632e6e6f646573205553494e47206274726565202874696c65293b0a002200000044524f5020494e444558207075626c69632e6e6f6465735f74;
0x696c655f6964783b0a010100000000060000007075626c6963000000000001010000000008000000706f737467726573000500000066616c7365000300000032;
0x36350101000000000000000000520f000000000000000004000000313235390005000000313736343700130000006e6f6465735f74696d657374616d705f6964;
0x780005000000494e4445580004000000004c00000043524541544520494e444558206e6f6465735f74696d657374616d705f696478204f4e207075626c69632e;
0x6e6f646573205553494e4720627472656520282274696d657374616d7022293b0a002700000044524f5020494e444558207075626c69632e6e6f6465735f7469;
0x6d657374616d705f6964783b0a010100000000060000007075626c6963000000000001010000000008000000706f737467726573000500000066616c73650003;
0x0000003236350101000000000000000000560f000000000000000004000000313235390005000000313736343800190000006e6f74655f636f6d6d656e74735f;
0x6e6f74655f69645f6964780005000000494e4445580004000000005600000043524541544520494e444558206e6f74655f636f6d6d656e74735f6e6f74655f69;
0x645f696478204f4e207075626c69632e6e6f74655f636f6d6d656e7473205553494e4720627472656520286e6f74655f6964293b0a002d00000044524f502049;
0x4e444558207075626c69632e6e6f74655f636f6d6d656e74735f6e6f74655f69645f6964783b0a010100000000060000007075626c6963000000000001010000;
0x000008000000706f737467726573000500000066616c736500030000003236360101000000000000000000590f00000000000000000400000031323539000500;
0x0000313736343900140000006e6f7465735f637265617465645f61745f6964780005000000494e4445580004000000004c00000043524541544520494e444558;
0x206e6f7465735f637265617465645f61745f696478204f4e207075626c69632e6e6f746573205553494e472062747265652028637265617465645f6174293b0a;
0x002800000044524f5020494e444558207075626c69632e6e6f7465735f637265617465645f61745f6964783b0a010100000000060000007075626c6963000000;
0x000001010000000008000000706f737467726573000500000066616c7365000300000032363801010000000000000000005c0f00000000000000000400000031;
0x3235390005000000313736353000150000006e6f7465735f74696c655f7374617475735f6964780005000000494e4445580004000000004f0000004352454154;
0x4520494e444558206e6f7465735f74696c655f7374617475735f696478204f4e207075626c69632e6e6f746573205553494e47206274726565202874696c652c;
0x20737461747573293b0a002900000044524f5020494e444558207075626c69632e6e6f7465735f74696c655f7374617475735f6964783b0a0101000000000600;
0x00007075626c6963000000000001010000000008000000706f737467726573000500000066616c73650003000000323638000300000032363801010000000000;
0x000000005d0f000000000000000004000000313235390005000000313736353100140000006e6f7465735f757064617465645f61745f6964780005000000494e;
0x4445580004000000004c00000043524541544520494e444558206e6f7465735f757064617465645f61745f696478204f4e207075626c69632e6e6f7465732055;
0x53494e472062747265652028757064617465645f6174293b0a002800000044524f5020494e444558207075626c69632e6e6f7465735f757064617465645f6174;
0x5f6964783b0a010100000000060000007075626c6963000000000001010000000008000000706f737467726573000500000066616c7365000300000032363801;
0x01000000000000000000300f00000000000000000400000031323539000500000031373635320010000000706f696e74735f67707869645f6964780005000000;
0x494e4445580004000000004900000043524541544520494e44455820706f696e74735f67707869645f696478204f4e207075626c69632e6770735f706f696e74;
0x73205553494e4720627472656520286770785f6964293b0a002400000044524f5020494e444558207075626c69632e706f696e74735f67707869645f6964783b;
0x0a010100000000060000007075626c6963000000000001010000000008000000706f737467726573000500000066616c73650003000000323532010100000000;
0x0000000000310f0000000000000000040000003132353900050000003137363533000f000000706f696e74735f74696c655f6964780005000000494e44455800;
0x04000000004600000043524541544520494e44455820706f696e74735f74696c655f696478204f4e207075626c69632e6770735f706f696e7473205553494e47;
0x206274726565202874696c65293b0a002300000044524f5020494e444558207075626c69632e706f696e74735f74696c655f6964783b0a010100000000060000;
0x007075626c6963000000000001010000000008000000706f737467726573000500000066616c736500030000003235320101000000000000000000760f000000;
0x0000000000040000003132353900050000003137363534001b00000072656c6174696f6e5f6d656d626572735f6d656d6265725f6964780005000000494e4445;
0x580004000000006a00000043524541544520494e4445582072656c6174696f6e5f6d656d626572735f6d656d6265725f696478204f4e207075626c69632e7265;
0x6c6174696f6e5f6d656d62657273205553494e4720627472656520286d656d6265725f747970652c206d656d6265725f6964293b0a002f00000044524f502049;
0x4e444558207075626c69632e72656c6174696f6e5f6d656d626572735f6d656d6265725f6964783b0a010100000000060000007075626c696300000000000101;
0x0000000008000000706f737467726573000500000066616c73650003000000323832000300000032383201010000000000000000007b0f000000000000000004;
0x0000003132353900050000003137363535001a00000072656c6174696f6e735f6368616e67657365745f69645f6964780005000000494e444558000400000000;
0x5800000043524541544520494e4445582072656c6174696f6e735f6368616e67657365745f69645f696478204f4e207075626c69632e72656c6174696f6e7320;
0x5553494e4720627472656520286368616e67657365745f6964293b0a002e00000044524f5020494e444558207075626c69632e72656c6174696f6e735f636861;
0x6e67657365745f69645f6964783b0a010100000000060000007075626c6963000000000001010000000008000000706f737467726573000500000066616c7365;
0x000300000032383401010000000000000000007e0f0000000000000000040000003132353900050000003137363536001700000072656c6174696f6e735f7469;
0x6d657374616d705f6964780005000000494e4445580004000000005400000043524541544520494e4445582072656c6174696f6e735f74696d657374616d705f;
0x696478204f4e207075626c69632e72656c6174696f6e73205553494e4720627472656520282274696d657374616d7022293b0a002b00000044524f5020494e44;
0x4558207075626c69632e72656c6174696f6e735f74696d657374616d705f6964783b0a010100000000060000007075626c696300000000000101000000000800;
0x0000706f737467726573000500000066616c7365000300000032383401010000000000000000002f0f0000000000000000040000003132353900050000003137;
0x363537000b000000757365725f69645f6964780005000000494e4445580004000000004900000043524541544520494e44455820757365725f69645f69647820;
0x4f4e207075626c69632e667269656e6473205553494e472062747265652028667269656e645f757365725f6964293b0a001f00000044524f5020494e44455820;
0x7075626c69632e757365725f69645f6964783b0a010100000000060000007075626c6963000000000001010000000008000000706f7374677265730005000000;
0x66616c7365000300000032353001010000000000000000008a0f00000000000000000400000031323539000500000031373635380019000000757365725f726f;
0x6c65735f69645f726f6c655f756e697175650005000000494e4445580004000000006000000043524541544520554e4951554520494e44455820757365725f72;
0x6f6c65735f69645f726f6c655f756e69717565204f4e207075626c69632e757365725f726f6c6573205553494e472062747265652028757365725f69642c2072;
0x6f6c65293b0a002d00000044524f5020494e444558207075626c69632e757365725f726f6c65735f69645f726f6c655f756e697175653b0a0101000000000600;
0x00007075626c6963000000000001010000000008000000706f737467726573000500000066616c73650003000000323931000300000032393101010000000000;
0x000000008f0f00000000000000000400000031323539000500000031373635390015000000757365725f746f6b656e735f746f6b656e5f696478000500000049;
0x4e4445580004000000005500000043524541544520554e4951554520494e44455820757365725f746f6b656e735f746f6b656e5f696478204f4e207075626c69;
0x632e757365725f746f6b656e73205553494e472062747265652028746f6b656e293b0a002900000044524f5020494e444558207075626c69632e757365725f74;
0x6f6b656e735f746f6b656e5f6964783b0a010100000000060000007075626c6963000000000001010000000008000000706f737467726573000500000066616c;
0x736500030000003239330101000000000000000000900f00000000000000000400000031323539000500000031373636300017000000757365725f746f6b656e;
0x735f757365725f69645f6964780005000000494e4445580004000000005200000043524541544520494e44455820757365725f746f6b656e735f757365725f69;
0x645f696478204f4e207075626c69632e757365725f746f6b656e73205553494e472062747265652028757365725f6964293b0a002b00000044524f5020494e44;
0x4558207075626c69632e757365725f746f6b656e735f757365725f69645f6964783b0a010100000000060000007075626c696300000000000101000000000800;
0x0000706f737467726573000500000066616c736500030000003239330101000000000000000000910f0000000000000000040000003132353900050000003137;
0x363631000e00000075736572735f617574685f6964780005000000494e4445580004000000005a00000043524541544520554e4951554520494e444558207573;
0x6572735f617574685f696478204f4e207075626c69632e7573657273205553494e472062747265652028617574685f70726f76696465722c20617574685f7569;
0x64293b0a002200000044524f5020494e444558207075626c69632e75736572735f617574685f6964783b0a010100000000060000007075626c69630000000000;
0x01010000000008000000706f737467726573000500000066616c7365000300000032393500030000003239350101000000000000000000920f00000000000000;
0x00040000003132353900050000003137363632001600000075736572735f646973706c61795f6e616d655f6964780005000000494e4445580004000000005700;
0x000043524541544520554e4951554520494e4445582075736572735f646973706c61795f6e616d655f696478204f4e207075626c69632e757365727320555349;
0x4e472062747265652028646973706c61795f6e616d65293b0a002a00000044524f5020494e444558207075626c69632e75736572735f646973706c61795f6e61;
0x6d655f6964783b0a010100000000060000007075626c6963000000000001010000000008000000706f737467726573000500000066616c736500030000003239;
0x350101000000000000000000930f0000000000000000040000003132353900050000003137363633001c00000075736572735f646973706c61795f6e616d655f;
0x6c6f7765725f6964780005000000494e4445580004000000006500000043524541544520494e4445582075736572735f646973706c61795f6e616d655f6c6f77;
0x65725f696478204f4e207075626c69632e7573657273205553494e4720627472656520286c6f7765722828646973706c61795f6e616d65293a3a746578742929;
0x3b0a003000000044524f5020494e444558207075626c69632e75736572735f646973706c61795f6e616d655f6c6f7765725f6964783b0a010100000000060000;
0x007075626c6963000000000001010000000008000000706f737467726573000500000066616c7365000300000032393500030000003239350101000000000000;
0x000000940f0000000000000000040000003132353900050000003137363634000f00000075736572735f656d61696c5f6964780005000000494e444558000400;
0x0000004900000043524541544520554e4951554520494e4445582075736572735f656d61696c5f696478204f4e207075626c69632e7573657273205553494e47;
0x2062747265652028656d61696c293b0a002300000044524f5020494e444558207075626c69632e75736572735f656d61696c5f6964783b0a0101000000000600;
0x00007075626c6963000000000001010000000008000000706f737467726573000500000066616c736500030000003239350101000000000000000000950f0000;
0x000000000000040000003132353900050000003137363635001500000075736572735f656d61696c5f6c6f7765725f6964780005000000494e44455800040000;
0x00005700000043524541544520494e4445582075736572735f656d61696c5f6c6f7765725f696478204f4e207075626c69632e7573657273205553494e472062;
0x7472656520286c6f7765722828656d61696c293a3a7465787429293b0a002900000044524f5020494e444558207075626c69632e75736572735f656d61696c5f;
0x6c6f7765725f6964783b0a010100000000060000007075626c6963000000000001010000000008000000706f737467726573000500000066616c736500030000;
0x0032393500030000003239350101000000000000000000960f0000000000000000040000003132353900050000003137363636000e00000075736572735f686f;
0x6d655f6964780005000000494e4445580004000000004500000043524541544520494e4445582075736572735f686f6d655f696478204f4e207075626c69632e;
0x7573657273205553494e472062747265652028686f6d655f74696c65293b0a002200000044524f5020494e444558207075626c69632e75736572735f686f6d65;
0x5f6964783b0a010100000000060000007075626c6963000000000001010000000008000000706f737467726573000500000066616c7365000300000032393501;
0x01000000000000000000990f000000000000000004000000313235390005000000313736363700120000007761795f6e6f6465735f6e6f64655f696478000500;
0x0000494e4445580004000000004b00000043524541544520494e444558207761795f6e6f6465735f6e6f64655f696478204f4e207075626c69632e7761795f6e;
0x6f646573205553494e4720627472656520286e6f64655f6964293b0a002600000044524f5020494e444558207075626c69632e7761795f6e6f6465735f6e6f64;
0x655f6964783b0a010100000000060000007075626c6963000000000001010000000008000000706f737467726573000500000066616c73650003000000323937;
0x01010000000000000000009e0f00000000000000000400000031323539000500000031373636380015000000776179735f6368616e67657365745f69645f6964;
0x780005000000494e4445580004000000004e00000043524541544520494e44455820776179735f6368616e67657365745f69645f696478204f4e207075626c69;
0x632e77617973205553494e4720627472656520286368616e67657365745f6964293b0a002900000044524f5020494e444558207075626c69632e776179735f63;
0x68616e67657365745f69645f6964783b0a010100000000060000007075626c6963000000000001010000000008000000706f737467726573000500000066616c;
0x736500030000003239390101000000000000000000a10f00000000000000000400000031323539000500000031373636390012000000776179735f74696d6573;
0x74616d705f6964780005000000494e4445580004000000004a00000043524541544520494e44455820776179735f74696d657374616d705f696478204f4e2070;
0x75626c69632e77617973205553494e4720627472656520282274696d657374616d7022293b0a002600000044524f5020494e444558207075626c69632e776179;
0x735f74696d657374616d705f6964783b0a010100000000060000007075626c6963000000000001010000000008000000706f737467726573000500000066616c;
0x736500030000003239390101000000000000000000a40f000000000000000004000000323630360005000000313736373000340000006368616e67657365745f;
0x636f6d6d656e7473206368616e67657365745f636f6d6d656e74735f617574686f725f69645f666b6579000d000000464b20434f4e53545241494e5400040000;
0x000095000000414c544552205441424c45204f4e4c59207075626c69632e6368616e67657365745f636f6d6d656e74730a2020202041444420434f4e53545241;
0x494e54206368616e67657365745f636f6d6d656e74735f617574686f725f69645f666b657920464f524549474e204b45592028617574686f725f696429205245;
0x464552454e434553207075626c69632e7573657273286964293b0a005e000000414c544552205441424c45204f4e4c59207075626c69632e6368616e67657365;
0x745f636f6d6d656e74732044524f5020434f4e53545241494e54206368616e67657365745f636f6d6d656e74735f617574686f725f69645f666b65793b0a0101;
0x00000000060000007075626c6963010100000001010000000008000000706f737467726573000500000066616c73650004000000333939320003000000323234;
0x00030000003239350101000000000000000000a50f000000000000000004000000323630360005000000313736373500370000006368616e67657365745f636f;
0x6d6d656e7473206368616e67657365745f636f6d6d656e74735f6368616e67657365745f69645f666b6579000d000000464b20434f4e53545241494e54000400;
0x000000a0000000414c544552205441424c45204f4e4c59207075626c69632e6368616e67657365745f636f6d6d656e74730a2020202041444420434f4e535452;
0x41494e54206368616e67657365745f636f6d6d656e74735f6368616e67657365745f69645f666b657920464f524549474e204b455920286368616e6765736574;
0x5f696429205245464552454e434553207075626c69632e6368616e676573657473286964293b0a0061000000414c544552205441424c45204f4e4c5920707562;
0x6c69632e6368616e67657365745f636f6d6d656e74732044524f5020434f4e53545241494e54206368616e67657365745f636f6d6d656e74735f6368616e6765;
0x7365745f69645f666b65793b0a010100000000060000007075626c6963010100000001010000000008000000706f737467726573000500000066616c73650003;
0x00000032323700030000003232340004000000333833380101000000000000000000a60f00000000000000000400000032363036000500000031373638300025;
0x0000006368616e67657365745f74616773206368616e67657365745f746167735f69645f666b6579000d000000464b20434f4e53545241494e54000400000000;
0x8e000000414c544552205441424c45204f4e4c59207075626c69632e6368616e67657365745f746167730a2020202041444420434f4e53545241494e54206368;
0x616e67657365745f746167735f69645f666b657920464f524549474e204b455920286368616e67657365745f696429205245464552454e434553207075626c69;
0x632e6368616e676573657473286964293b0a004f000000414c544552205441424c45204f4e4c59207075626c69632e6368616e67657365745f74616773204452;
0x4f5020434f4e53545241494e54206368616e67657365745f746167735f69645f666b65793b0a010100000000060000007075626c696301010000000101000000;
0x0008000000706f737467726573000500000066616c7365000400000033383338000300000032323700030000003232360101000000000000000000a80f000000;
0x0000000000040000003236303600050000003137363835003f0000006368616e6765736574735f7375627363726962657273206368616e6765736574735f7375;
0x6273637269626572735f6368616e67657365745f69645f666b6579000d000000464b20434f4e53545241494e54000400000000a8000000414c54455220544142;
0x4c45204f4e4c59207075626c69632e6368616e6765736574735f73756273637269626572730a2020202041444420434f4e53545241494e54206368616e676573;
0x6574735f73756273637269626572735f6368616e67657365745f69645f666b657920464f524549474e204b455920286368616e67657365745f69642920524546;
0x4552454e434553207075626c69632e6368616e676573657473286964293b0a0069000000414c544552205441424c45204f4e4c59207075626c69632e6368616e;
0x6765736574735f73756273637269626572732044524f5020434f4e53545241494e54206368616e6765736574735f73756273637269626572735f6368616e6765;
0x7365745f69645f666b65793b0a010100000000060000007075626c6963010100000001010000000008000000706f737467726573000500000066616c73650003;
0x00000032323700040000003338333800030000003232390101000000000000000000a90f00000000000000000400000032363036000500000031373639300040;
0x0000006368616e6765736574735f7375627363726962657273206368616e6765736574735f73756273637269626572735f737562736372696265725f69645f66;
0x6b6579000d000000464b20434f4e53545241494e54000400000000a5000000414c544552205441424c45204f4e4c59207075626c69632e6368616e6765736574;
0x735f73756273637269626572730a2020202041444420434f4e53545241494e54206368616e6765736574735f73756273637269626572735f7375627363726962;
0x65725f69645f666b657920464f524549474e204b45592028737562736372696265725f696429205245464552454e434553207075626c69632e75736572732869;
0x64293b0a006a000000414c544552205441424c45204f4e4c59207075626c69632e6368616e6765736574735f73756273637269626572732044524f5020434f4e;
0x53545241494e54206368616e6765736574735f73756273637269626572735f737562736372696265725f69645f666b65793b0a01010000000006000000707562;
0x6c6963010100000001010000000008000000706f737467726573000500000066616c736500030000003239350004000000333939320003000000323239010100;
0x0000000000000000a70f000000000000000004000000323630360005000000313736393500220000006368616e676573657473206368616e6765736574735f75;
0x7365725f69645f666b6579000d000000464b20434f4e53545241494e5400040000000081000000414c544552205441424c45204f4e4c59207075626c69632e63;
0x68616e6765736574730a2020202041444420434f4e53545241494e54206368616e6765736574735f757365725f69645f666b657920464f524549474e204b4559;
0x2028757365725f696429205245464552454e434553207075626c69632e7573657273286964293b0a004c000000414c544552205441424c45204f4e4c59207075;
0x626c69632e6368616e6765736574732044524f5020434f4e53545241494e54206368616e6765736574735f757365725f69645f666b65793b0a01010000000006;
0x0000007075626c6963010100000001010000000008000000706f737467726573000500000066616c736500040000003339393200030000003232370003000000;
0x3239350101000000000000000000aa0f00000000000000000400000032363036000500000031373730300034000000636c69656e745f6170706c69636174696f;
0x6e7320636c69656e745f6170706c69636174696f6e735f757365725f69645f666b6579000d000000464b20434f4e53545241494e540004000000009300000041;
0x4c544552205441424c45204f4e4c59207075626c69632e636c69656e745f6170706c69636174696f6e730a2020202041444420434f4e53545241494e5420636c;
0x69656e745f6170706c69636174696f6e735f757365725f69645f666b657920464f524549474e204b45592028757365725f696429205245464552454e43455320;
0x7075626c69632e7573657273286964293b0a005e000000414c544552205441424c45204f4e4c59207075626c69632e636c69656e745f6170706c69636174696f;
0x6e732044524f5020434f4e53545241494e5420636c69656e745f6170706c69636174696f6e735f757365725f69645f666b65793b0a0101000000000600000070;
0x75626c6963010100000001010000000008000000706f737467726573000500000066616c73650003000000323935000400000033393932000300000032333001;
0x01000000000000000000ab0f0000000000000000040000003236303600050000003137373035002b00000063757272656e745f6e6f64655f7461677320637572;
0x72656e745f6e6f64655f746167735f69645f666b6579000d000000464b20434f4e53545241494e5400040000000092000000414c544552205441424c45204f4e;
0x4c59207075626c69632e63757272656e745f6e6f64655f746167730a2020202041444420434f4e53545241494e542063757272656e745f6e6f64655f74616773;
0x5f69645f666b657920464f524549474e204b455920286e6f64655f696429205245464552454e434553207075626c69632e63757272656e745f6e6f6465732869;
0x64293b0a0055000000414c544552205441424c45204f4e4c59207075626c69632e63757272656e745f6e6f64655f746167732044524f5020434f4e5354524149;
0x4e542063757272656e745f6e6f64655f746167735f69645f666b65793b0a010100000000060000007075626c6963010100000001010000000008000000706f73;
0x7467726573000500000066616c7365000300000032333200040000003338353000030000003233330101000000000000000000ac0f0000000000000000040000;
0x003236303600050000003137373130002d00000063757272656e745f6e6f6465732063757272656e745f6e6f6465735f6368616e67657365745f69645f666b65;
0x79000d000000464b20434f4e53545241494e5400040000000096000000414c544552205441424c45204f4e4c59207075626c69632e63757272656e745f6e6f64;
0x65730a2020202041444420434f4e53545241494e542063757272656e745f6e6f6465735f6368616e67657365745f69645f666b657920464f524549474e204b45;
0x5920286368616e67657365745f696429205245464552454e434553207075626c69632e6368616e676573657473286964293b0a0057000000414c544552205441;
0x424c45204f4e4c59207075626c69632e63757272656e745f6e6f6465732044524f5020434f4e53545241494e542063757272656e745f6e6f6465735f6368616e;
0x67657365745f69645f666b65793b0a010100000000060000007075626c6963010100000001010000000008000000706f737467726573000500000066616c7365;
0x000400000033383338000300000032333300030000003232370101000000000000000000ad0f0000000000000000040000003236303600050000003137373135;
0x003900000063757272656e745f72656c6174696f6e5f6d656d626572732063757272656e745f72656c6174696f6e5f6d656d626572735f69645f666b6579000d;
0x000000464b20434f4e53545241494e54000400000000a8000000414c544552205441424c45204f4e4c59207075626c69632e63757272656e745f72656c617469;
0x6f6e5f6d656d626572730a2020202041444420434f4e53545241494e542063757272656e745f72656c6174696f6e5f6d656d626572735f69645f666b65792046;
0x4f524549474e204b4559202872656c6174696f6e5f696429205245464552454e434553207075626c69632e63757272656e745f72656c6174696f6e7328696429;
0x3b0a0063000000414c544552205441424c45204f4e4c59207075626c69632e63757272656e745f72656c6174696f6e5f6d656d626572732044524f5020434f4e;
0x53545241494e542063757272656e745f72656c6174696f6e5f6d656d626572735f69645f666b65793b0a010100000000060000007075626c6963010100000001;
0x010000000008000000706f737467726573000500000066616c7365000400000033383539000300000032333700030000003233350101000000000000000000ae;
0x0f0000000000000000040000003236303600050000003137373230003300000063757272656e745f72656c6174696f6e5f746167732063757272656e745f7265;
0x6c6174696f6e5f746167735f69645f666b6579000d000000464b20434f4e53545241494e54000400000000a2000000414c544552205441424c45204f4e4c5920;
0x7075626c69632e63757272656e745f72656c6174696f6e5f746167730a2020202041444420434f4e53545241494e542063757272656e745f72656c6174696f6e;
0x5f746167735f69645f666b657920464f524549474e204b4559202872656c6174696f6e5f696429205245464552454e434553207075626c69632e63757272656e;
0x745f72656c6174696f6e73286964293b0a005d000000414c544552205441424c45204f4e4c59207075626c69632e63757272656e745f72656c6174696f6e5f74;
0x6167732044524f5020434f4e53545241494e542063757272656e745f72656c6174696f6e5f746167735f69645f666b65793b0a01010000000006000000707562].
Definition toc_words_10 : list Z := [
0x6c6963010100000001010000000008000000706f737467726573000500000066616c736500030000003233370003000000323336000400000033383539010100;
0x0000000000000000af0f0000000000000000040000003236303600050000003137373235003500000063757272656e745f72656c6174696f6e73206375727265;
0x6e745f72656c6174696f6e735f6368616e67657365745f69645f666b6579000d000000464b20434f4e53545241494e540004000000009e000000414c54455220;
0x5441424c45204f4e4c59207075626c69632e63757272656e745f72656c6174696f6e730a2020202041444420434f4e53545241494e542063757272656e745f72;
0x656c6174696f6e735f6368616e67657365745f69645f666b657920464f524549474e204b455920286368616e67657365745f696429205245464552454e434553;
0x207075626c69632e6368616e676573657473286964293b0a005f000000414c544552205441424c45204f4e4c59207075626c69632e63757272656e745f72656c;
0x6174696f6e732044524f5020434f4e53545241494e542063757272656e745f72656c6174696f6e735f6368616e67657365745f69645f666b65793b0a01010000;
0x0000060000007075626c6963010100000001010000000008000000706f737467726573000500000066616c736500040000003338333800030000003233370003;
0x0000003232370101000000000000000000b00f0000000000000000040000003236303600050000003137373330002b00000063757272656e745f7761795f6e6f;
0x6465732063757272656e745f7761795f6e6f6465735f69645f666b6579000d000000464b20434f4e53545241494e5400040000000090000000414c5445522054;
0x41424c45204f4e4c59207075626c69632e63757272656e745f7761795f6e6f6465730a2020202041444420434f4e53545241494e542063757272656e745f7761;
0x795f6e6f6465735f69645f666b657920464f524549474e204b455920287761795f696429205245464552454e434553207075626c69632e63757272656e745f77;
0x617973286964293b0a0055000000414c544552205441424c45204f4e4c59207075626c69632e63757272656e745f7761795f6e6f6465732044524f5020434f4e;
0x53545241494e542063757272656e745f7761795f6e6f6465735f69645f666b65793b0a010100000000060000007075626c696301010000000101000000000800;
0x0000706f737467726573000500000066616c7365000400000033383637000300000032343100030000003233390101000000000000000000b10f000000000000;
0x0000040000003236303600050000003137373335003000000063757272656e745f7761795f6e6f6465732063757272656e745f7761795f6e6f6465735f6e6f64;
0x655f69645f666b6579000d000000464b20434f4e53545241494e5400040000000097000000414c544552205441424c45204f4e4c59207075626c69632e637572;
0x72656e745f7761795f6e6f6465730a2020202041444420434f4e53545241494e542063757272656e745f7761795f6e6f6465735f6e6f64655f69645f666b6579;
0x20464f524549474e204b455920286e6f64655f696429205245464552454e434553207075626c69632e63757272656e745f6e6f646573286964293b0a005a0000;
0x00414c544552205441424c45204f4e4c59207075626c69632e63757272656e745f7761795f6e6f6465732044524f5020434f4e53545241494e54206375727265;
0x6e745f7761795f6e6f6465735f6e6f64655f69645f666b65793b0a010100000000060000007075626c6963010100000001010000000008000000706f73746772;
0x6573000500000066616c7365000300000032333900040000003338353000030000003233330101000000000000000000b20f0000000000000000040000003236;
0x303600050000003137373430002900000063757272656e745f7761795f746167732063757272656e745f7761795f746167735f69645f666b6579000d00000046;
0x4b20434f4e53545241494e540004000000008e000000414c544552205441424c45204f4e4c59207075626c69632e63757272656e745f7761795f746167730a20;
0x20202041444420434f4e53545241494e542063757272656e745f7761795f746167735f69645f666b657920464f524549474e204b455920287761795f69642920;
0x5245464552454e434553207075626c69632e63757272656e745f77617973286964293b0a0053000000414c544552205441424c45204f4e4c59207075626c6963;
0x2e63757272656e745f7761795f746167732044524f5020434f4e53545241494e542063757272656e745f7761795f746167735f69645f666b65793b0a01010000;
0x0000060000007075626c6963010100000001010000000008000000706f737467726573000500000066616c736500030000003234310004000000333836370003;
0x0000003234300101000000000000000000b30f0000000000000000040000003236303600050000003137373435002b00000063757272656e745f776179732063;
0x757272656e745f776179735f6368616e67657365745f69645f666b6579000d000000464b20434f4e53545241494e5400040000000094000000414c5445522054;
0x41424c45204f4e4c59207075626c69632e63757272656e745f776179730a2020202041444420434f4e53545241494e542063757272656e745f776179735f6368;
0x616e67657365745f69645f666b657920464f524549474e204b455920286368616e67657365745f696429205245464552454e434553207075626c69632e636861;
0x6e676573657473286964293b0a0055000000414c544552205441424c45204f4e4c59207075626c69632e63757272656e745f776179732044524f5020434f4e53;
0x545241494e542063757272656e745f776179735f6368616e67657365745f69645f666b65793b0a010100000000060000007075626c6963010100000001010000;
0x000008000000706f737467726573000500000066616c7365000400000033383338000300000032343100030000003232370101000000000000000000b40f0000;
0x000000000000040000003236303600050000003137373530003100000064696172795f636f6d6d656e74732064696172795f636f6d6d656e74735f6469617279;
0x5f656e7472795f69645f666b6579000d000000464b20434f4e53545241494e540004000000009f000000414c544552205441424c45204f4e4c59207075626c69;
0x632e64696172795f636f6d6d656e74730a2020202041444420434f4e53545241494e542064696172795f636f6d6d656e74735f64696172795f656e7472795f69;
0x645f666b657920464f524549474e204b4559202864696172795f656e7472795f696429205245464552454e434553207075626c69632e64696172795f656e7472;
0x696573286964293b0a005b000000414c544552205441424c45204f4e4c59207075626c69632e64696172795f636f6d6d656e74732044524f5020434f4e535452;
0x41494e542064696172795f636f6d6d656e74735f64696172795f656e7472795f69645f666b65793b0a010100000000060000007075626c696301010000000101;
0x0000000008000000706f737467726573000500000066616c7365000400000033383737000300000032343500030000003234370101000000000000000000b50f;
0x0000000000000000040000003236303600050000003137373535002a00000064696172795f636f6d6d656e74732064696172795f636f6d6d656e74735f757365;
0x725f69645f666b6579000d000000464b20434f4e53545241494e5400040000000089000000414c544552205441424c45204f4e4c59207075626c69632e646961;
0x72795f636f6d6d656e74730a2020202041444420434f4e53545241494e542064696172795f636f6d6d656e74735f757365725f69645f666b657920464f524549;
0x474e204b45592028757365725f696429205245464552454e434553207075626c69632e7573657273286964293b0a0054000000414c544552205441424c45204f;
0x4e4c59207075626c69632e64696172795f636f6d6d656e74732044524f5020434f4e53545241494e542064696172795f636f6d6d656e74735f757365725f6964;
0x5f666b65793b0a010100000000060000007075626c6963010100000001010000000008000000706f737467726573000500000066616c73650004000000333939;
0x32000300000032343500030000003239350101000000000000000000b60f0000000000000000040000003236303600050000003137373630002e000000646961;
0x72795f656e74726965732064696172795f656e74726965735f6c616e67756167655f636f64655f666b6579000d000000464b20434f4e53545241494e54000400;
0x00000099000000414c544552205441424c45204f4e4c59207075626c69632e64696172795f656e74726965730a2020202041444420434f4e53545241494e5420;
0x64696172795f656e74726965735f6c616e67756167655f636f64655f666b657920464f524549474e204b455920286c616e67756167655f636f64652920524546;
0x4552454e434553207075626c69632e6c616e67756167657328636f6465293b0a0058000000414c544552205441424c45204f4e4c59207075626c69632e646961;
0x72795f656e74726965732044524f5020434f4e53545241494e542064696172795f656e74726965735f6c616e67756167655f636f64655f666b65793b0a010100;
0x000000060000007075626c6963010100000001010000000008000000706f737467726573000500000066616c7365000400000033393131000300000032363100;
0x030000003234370101000000000000000000b70f0000000000000000040000003236303600050000003137373635002800000064696172795f656e7472696573;
0x2064696172795f656e74726965735f757365725f69645f666b6579000d000000464b20434f4e53545241494e5400040000000087000000414c54455220544142;
0x4c45204f4e4c59207075626c69632e64696172795f656e74726965730a2020202041444420434f4e53545241494e542064696172795f656e74726965735f7573;
0x65725f69645f666b657920464f524549474e204b45592028757365725f696429205245464552454e434553207075626c69632e7573657273286964293b0a0052;
0x000000414c544552205441424c45204f4e4c59207075626c69632e64696172795f656e74726965732044524f5020434f4e53545241494e542064696172795f65;
0x6e74726965735f757365725f69645f666b65793b0a010100000000060000007075626c6963010100000001010000000008000000706f73746772657300050000;
0x0066616c7365000300000032343700030000003239350004000000333939320101000000000000000000b80f0000000000000000040000003236303600050000;
0x003137373730004700000064696172795f656e7472795f737562736372697074696f6e732064696172795f656e7472795f737562736372697074696f6e735f64;
0x696172795f656e7472795f69645f666b6579000d000000464b20434f4e53545241494e54000400000000b5000000414c544552205441424c45204f4e4c592070;
0x75626c69632e64696172795f656e7472795f737562736372697074696f6e730a2020202041444420434f4e53545241494e542064696172795f656e7472795f73;
0x7562736372697074696f6e735f64696172795f656e7472795f69645f666b657920464f524549474e204b4559202864696172795f656e7472795f696429205245;
0x464552454e434553207075626c69632e64696172795f656e7472696573286964293b0a0071000000414c544552205441424c45204f4e4c59207075626c69632e;
0x64696172795f656e7472795f737562736372697074696f6e732044524f5020434f4e53545241494e542064696172795f656e7472795f73756273637269707469;
0x6f6e735f64696172795f656e7472795f69645f666b65793b0a010100000000060000007075626c6963010100000001010000000008000000706f737467726573;
0x000500000066616c7365000300000032343900040000003338373700030000003234370101000000000000000000b90f00000000000000000400000032363036;
0x00050000003137373735004000000064696172795f656e7472795f737562736372697074696f6e732064696172795f656e7472795f737562736372697074696f;
0x6e735f757365725f69645f666b6579000d000000464b20434f4e53545241494e540004000000009f000000414c544552205441424c45204f4e4c59207075626c;
0x69632e64696172795f656e7472795f737562736372697074696f6e730a2020202041444420434f4e53545241494e542064696172795f656e7472795f73756273;
0x6372697074696f6e735f757365725f69645f666b657920464f524549474e204b45592028757365725f696429205245464552454e434553207075626c69632e75;
0x73657273286964293b0a006a000000414c544552205441424c45204f4e4c59207075626c69632e64696172795f656e7472795f737562736372697074696f6e73;
0x2044524f5020434f4e53545241494e542064696172795f656e7472795f737562736372697074696f6e735f757365725f69645f666b65793b0a01010000000006;
0x0000007075626c6963010100000001010000000008000000706f737467726573000500000066616c736500030000003234390004000000333939320003000000;
0x3239350101000000000000000000cb0f000000000000000004000000323630360005000000313737383000270000006f617574685f6163636573735f6772616e;
0x747320666b5f7261696c735f33333063333264386439000d000000464b20434f4e53545241494e540004000000009a000000414c544552205441424c45204f4e;
0x4c59207075626c69632e6f617574685f6163636573735f6772616e74730a2020202041444420434f4e53545241494e5420666b5f7261696c735f333330633332;
0x6438643920464f524549474e204b455920287265736f757263655f6f776e65725f696429205245464552454e434553207075626c69632e757365727328696429;
0x204e4f542056414c49443b0a0051000000414c544552205441424c45204f4e4c59207075626c69632e6f617574685f6163636573735f6772616e74732044524f;
0x5020434f4e53545241494e5420666b5f7261696c735f333330633332643864393b0a010100000000060000007075626c69630101000000010100000000080000;
0x00706f737467726573000500000066616c7365000300000032373000040000003339393200030000003239350101000000000000000000cd0f00000000000000;
0x0004000000323630360005000000313737383500270000006f617574685f6163636573735f746f6b656e7320666b5f7261696c735f3733326362383361623700;
0x0d000000464b20434f4e53545241494e54000400000000a4000000414c544552205441424c45204f4e4c59207075626c69632e6f617574685f6163636573735f;
0x746f6b656e730a2020202041444420434f4e53545241494e5420666b5f7261696c735f3733326362383361623720464f524549474e204b455920286170706c69;
0x636174696f6e5f696429205245464552454e434553207075626c69632e6f617574685f6170706c69636174696f6e7328696429204e4f542056414c49443b0a00;
0x51000000414c544552205441424c45204f4e4c59207075626c69632e6f617574685f6163636573735f746f6b656e732044524f5020434f4e53545241494e5420;
0x666b5f7261696c735f373332636238336162373b0a010100000000060000007075626c6963010100000001010000000008000000706f73746772657300050000;
0x0066616c7365000300000032373200040000003339343800030000003237340101000000000000000000a30f0000000000000000040000003236303600050000;
0x00313737393000320000006163746976655f73746f726167655f76617269616e745f7265636f72647320666b5f7261696c735f39393339363564663035000d00;
0x0000464b20434f4e53545241494e54000400000000a0000000414c544552205441424c45204f4e4c59207075626c69632e6163746976655f73746f726167655f;
0x76617269616e745f7265636f7264730a2020202041444420434f4e53545241494e5420666b5f7261696c735f3939333936356466303520464f524549474e204b;
0x45592028626c6f625f696429205245464552454e434553207075626c69632e6163746976655f73746f726167655f626c6f6273286964293b0a005c000000414c;
0x544552205441424c45204f4e4c59207075626c69632e6163746976655f73746f726167655f76617269616e745f7265636f7264732044524f5020434f4e535452;
0x41494e5420666b5f7261696c735f393933393635646630353b0a010100000000060000007075626c6963010100000001010000000008000000706f7374677265;
0x73000500000066616c7365000300000032323100040000003338323200030000003231390101000000000000000000cc0f000000000000000004000000323630;
0x360005000000313737393500270000006f617574685f6163636573735f6772616e747320666b5f7261696c735f62346235336530376238000d000000464b2043;
0x4f4e53545241494e54000400000000a4000000414c544552205441424c45204f4e4c59207075626c69632e6f617574685f6163636573735f6772616e74730a20;
0x20202041444420434f4e53545241494e5420666b5f7261696c735f6234623533653037623820464f524549474e204b455920286170706c69636174696f6e5f69;
0x6429205245464552454e434553207075626c69632e6f617574685f6170706c69636174696f6e7328696429204e4f542056414c49443b0a0051000000414c5445;
0x52205441424c45204f4e4c59207075626c69632e6f617574685f6163636573735f6772616e74732044524f5020434f4e53545241494e5420666b5f7261696c73;
0x5f623462353365303762383b0a010100000000060000007075626c6963010100000001010000000008000000706f737467726573000500000066616c73650003;
0x00000032373000040000003339343800030000003237340101000000000000000000a20f0000000000000000040000003236303600050000003137383030002e;
0x0000006163746976655f73746f726167655f6174746163686d656e747320666b5f7261696c735f63336233393335303537000d000000464b20434f4e53545241;
0x494e540004000000009c000000414c544552205441424c45204f4e4c59207075626c69632e6163746976655f73746f726167655f6174746163686d656e74730a;
0x2020202041444420434f4e53545241494e5420666b5f7261696c735f6333623339333530353720464f524549474e204b45592028626c6f625f69642920524546;
0x4552454e434553207075626c69632e6163746976655f73746f726167655f626c6f6273286964293b0a0058000000414c544552205441424c45204f4e4c592070;
0x75626c69632e6163746976655f73746f726167655f6174746163686d656e74732044524f5020434f4e53545241494e5420666b5f7261696c735f633362333933;
0x353035373b0a010100000000060000007075626c6963010100000001010000000008000000706f737467726573000500000066616c7365000300000032313900;
0x040000003338323200030000003231370101000000000000000000cf0f000000000000000004000000323630360005000000313738303500260000006f617574;
0x685f6170706c69636174696f6e7320666b5f7261696c735f63633838366533313561000d000000464b20434f4e53545241494e5400040000000090000000414c;
0x544552205441424c45204f4e4c59207075626c69632e6f617574685f6170706c69636174696f6e730a2020202041444420434f4e53545241494e5420666b5f72;
0x61696c735f6363383836653331356120464f524549474e204b455920286f776e65725f696429205245464552454e434553207075626c69632e75736572732869;
0x6429204e4f542056414c49443b0a0050000000414c544552205441424c45204f4e4c59207075626c69632e6f617574685f6170706c69636174696f6e73204452;
0x4f5020434f4e53545241494e5420666b5f7261696c735f636338383665333135613b0a010100000000060000007075626c696301010000000101000000000800;
0x0000706f737467726573000500000066616c7365000300000032373400040000003339393200030000003239350101000000000000000000ce0f000000000000;
0x000004000000323630360005000000313738313000270000006f617574685f6163636573735f746f6b656e7320666b5f7261696c735f65653633663235343139;
0x000d000000464b20434f4e53545241494e540004000000009a000000414c544552205441424c45204f4e4c59207075626c69632e6f617574685f616363657373;
0x5f746f6b656e730a2020202041444420434f4e53545241494e5420666b5f7261696c735f6565363366323534313920464f524549474e204b455920287265736f;
0x757263655f6f776e65725f696429205245464552454e434553207075626c69632e757365727328696429204e4f542056414c49443b0a0051000000414c544552;
0x205441424c45204f4e4c59207075626c69632e6f617574685f6163636573735f746f6b656e732044524f5020434f4e53545241494e5420666b5f7261696c735f;
0x656536336632353431393b0a010100000000060000007075626c6963010100000001010000000008000000706f737467726573000500000066616c7365000300;
0x000032393500030000003237320004000000333939320101000000000000000000ba0f0000000000000000040000003236303600050000003137383135002300;
0x0000667269656e647320667269656e64735f667269656e645f757365725f69645f666b6579000d000000464b20434f4e53545241494e54000400000000890000;
0x00414c544552205441424c45204f4e4c59207075626c69632e667269656e64730a2020202041444420434f4e53545241494e5420667269656e64735f66726965;
0x6e645f757365725f69645f666b657920464f524549474e204b45592028667269656e645f757365725f696429205245464552454e434553207075626c69632e75;
0x73657273286964293b0a004d000000414c544552205441424c45204f4e4c59207075626c69632e667269656e64732044524f5020434f4e53545241494e542066;
0x7269656e64735f667269656e645f757365725f69645f666b65793b0a010100000000060000007075626c6963010100000001010000000008000000706f737467;
0x726573000500000066616c7365000400000033393932000300000032393500030000003235300101000000000000000000bb0f00000000000000000400000032;
0x36303600050000003137383230001c000000667269656e647320667269656e64735f757365725f69645f666b6579000d000000464b20434f4e53545241494e54;
0x0004000000007b000000414c544552205441424c45204f4e4c59207075626c69632e667269656e64730a2020202041444420434f4e53545241494e5420667269;
0x656e64735f757365725f69645f666b657920464f524549474e204b45592028757365725f696429205245464552454e434553207075626c69632e757365727328;
0x6964293b0a0046000000414c544552205441424c45204f4e4c59207075626c69632e667269656e64732044524f5020434f4e53545241494e5420667269656e64;
0x735f757365725f69645f666b65793b0a010100000000060000007075626c6963010100000001010000000008000000706f737467726573000500000066616c73;
0x65000300000032393500040000003339393200030000003235300101000000000000000000bc0f00000000000000000400000032363036000500000031373832;
0x3500210000006770735f706f696e7473206770735f706f696e74735f6770785f69645f666b6579000d000000464b20434f4e53545241494e5400040000000083;
0x000000414c544552205441424c45204f4e4c59207075626c69632e6770735f706f696e74730a2020202041444420434f4e53545241494e54206770735f706f69;
0x6e74735f6770785f69645f666b657920464f524549474e204b455920286770785f696429205245464552454e434553207075626c69632e6770785f66696c6573;
0x286964293b0a004b000000414c544552205441424c45204f4e4c59207075626c69632e6770735f706f696e74732044524f5020434f4e53545241494e54206770;
0x735f706f696e74735f6770785f69645f666b65793b0a010100000000060000007075626c6963010100000001010000000008000000706f737467726573000500;
0x000066616c7365000300000032353500030000003235320004000000333839350101000000000000000000bd0f00000000000000000400000032363036000500;
0x0000313738333000270000006770785f66696c655f74616773206770785f66696c655f746167735f6770785f69645f666b6579000d000000464b20434f4e5354;
0x5241494e5400040000000089000000414c544552205441424c45204f4e4c59207075626c69632e6770785f66696c655f746167730a2020202041444420434f4e;
0x53545241494e54206770785f66696c655f746167735f6770785f69645f666b657920464f524549474e204b455920286770785f696429205245464552454e4345;
0x53207075626c69632e6770785f66696c6573286964293b0a0051000000414c544552205441424c45204f4e4c59207075626c69632e6770785f66696c655f7461;
0x67732044524f5020434f4e53545241494e54206770785f66696c655f746167735f6770785f69645f666b65793b0a010100000000060000007075626c69630101;
0x00000001010000000008000000706f737467726573000500000066616c7365000400000033383935000300000032353500030000003235330101000000000000;
0x000000be0f000000000000000004000000323630360005000000313738333500200000006770785f66696c6573206770785f66696c65735f757365725f69645f;
0x666b6579000d000000464b20434f4e53545241494e540004000000007f000000414c544552205441424c45204f4e4c59207075626c69632e6770785f66696c65;
0x730a2020202041444420434f4e53545241494e54206770785f66696c65735f757365725f69645f666b657920464f524549474e204b45592028757365725f6964;
0x29205245464552454e434553207075626c69632e7573657273286964293b0a004a000000414c544552205441424c45204f4e4c59207075626c69632e6770785f;
0x66696c65732044524f5020434f4e53545241494e54206770785f66696c65735f757365725f69645f666b65793b0a010100000000060000007075626c69630101;
0x00000001010000000008000000706f737467726573000500000066616c7365000400000033393932000300000032393500030000003235350101000000000000;
0x000000bf0f0000000000000000040000003236303600050000003137383430002b00000069737375655f636f6d6d656e74732069737375655f636f6d6d656e74;
0x735f69737375655f69645f666b6579000d000000464b20434f4e53545241494e540004000000008c000000414c544552205441424c45204f4e4c59207075626c;
0x69632e69737375655f636f6d6d656e74730a2020202041444420434f4e53545241494e542069737375655f636f6d6d656e74735f69737375655f69645f666b65;
0x7920464f524549474e204b4559202869737375655f696429205245464552454e434553207075626c69632e697373756573286964293b0a0055000000414c5445;
0x52205441424c45204f4e4c59207075626c69632e69737375655f636f6d6d656e74732044524f5020434f4e53545241494e542069737375655f636f6d6d656e74;
0x735f69737375655f69645f666b65793b0a010100000000060000007075626c6963010100000001010000000008000000706f737467726573000500000066616c;
0x7365000300000032353900030000003235370004000000333930390101000000000000000000c00f000000000000000004000000323630360005000000313738;
0x3435002a00000069737375655f636f6d6d656e74732069737375655f636f6d6d656e74735f757365725f69645f666b6579000d000000464b20434f4e53545241;
0x494e5400040000000089000000414c544552205441424c45204f4e4c59207075626c69632e69737375655f636f6d6d656e74730a2020202041444420434f4e53;
0x545241494e542069737375655f636f6d6d656e74735f757365725f69645f666b657920464f524549474e204b45592028757365725f696429205245464552454e;
0x434553207075626c69632e7573657273286964293b0a0054000000414c544552205441424c45204f4e4c59207075626c69632e69737375655f636f6d6d656e74;
0x732044524f5020434f4e53545241494e542069737375655f636f6d6d656e74735f757365725f69645f666b65793b0a010100000000060000007075626c696301;
0x0100000001010000000008000000706f737467726573000500000066616c73650003000000323935000300000032353700040000003339393201010000000000;
0x00000000c10f00000000000000000400000032363036000500000031373835300023000000697373756573206973737565735f7265706f727465645f75736572;
0x5f69645f666b6579000d000000464b20434f4e53545241494e540004000000008b000000414c544552205441424c45204f4e4c59207075626c69632e69737375;
0x65730a2020202041444420434f4e53545241494e54206973737565735f7265706f727465645f757365725f69645f666b657920464f524549474e204b45592028;
0x7265706f727465645f757365725f696429205245464552454e434553207075626c69632e7573657273286964293b0a004d000000414c544552205441424c4520;
0x4f4e4c59207075626c69632e6973737565732044524f5020434f4e53545241494e54206973737565735f7265706f727465645f757365725f69645f666b65793b;
0x0a010100000000060000007075626c6963010100000001010000000008000000706f737467726573000500000066616c73650003000000323935000400000033;
0x39393200030000003235390101000000000000000000c20f0000000000000000040000003236303600050000003137383535001e000000697373756573206973;
0x737565735f7265736f6c7665645f62795f666b6579000d000000464b20434f4e53545241494e5400040000000081000000414c544552205441424c45204f4e4c;
0x59207075626c69632e6973737565730a2020202041444420434f4e53545241494e54206973737565735f7265736f6c7665645f62795f666b657920464f524549;
0x474e204b455920287265736f6c7665645f627929205245464552454e434553207075626c69632e7573657273286964293b0a0048000000414c54455220544142;
0x4c45204f4e4c59207075626c69632e6973737565732044524f5020434f4e53545241494e54206973737565735f7265736f6c7665645f62795f666b65793b0a01;
0x0100000000060000007075626c6963010100000001010000000008000000706f737467726573000500000066616c736500030000003235390003000000323935;
0x0004000000333939320101000000000000000000c30f0000000000000000040000003236303600050000003137383630001d0000006973737565732069737375;
0x65735f757064617465645f62795f666b6579000d000000464b20434f4e53545241494e540004000000007f000000414c544552205441424c45204f4e4c592070;
0x75626c69632e6973737565730a2020202041444420434f4e53545241494e54206973737565735f757064617465645f62795f666b657920464f524549474e204b;
0x45592028757064617465645f627929205245464552454e434553207075626c69632e7573657273286964293b0a0047000000414c544552205441424c45204f4e;
0x4c59207075626c69632e6973737565732044524f5020434f4e53545241494e54206973737565735f757064617465645f62795f666b65793b0a01010000000006;
0x0000007075626c6963010100000001010000000008000000706f737467726573000500000066616c736500030000003235390004000000333939320003000000;
0x3239350101000000000000000000c40f000000000000000004000000323630360005000000313738363500230000006d65737361676573206d65737361676573;
0x5f66726f6d5f757365725f69645f666b6579000d000000464b20434f4e53545241494e5400040000000087000000414c544552205441424c45204f4e4c592070;
0x75626c69632e6d657373616765730a2020202041444420434f4e53545241494e54206d657373616765735f66726f6d5f757365725f69645f666b657920464f52;
0x4549474e204b4559202866726f6d5f757365725f696429205245464552454e434553207075626c69632e7573657273286964293b0a004d000000414c54455220;
0x5441424c45204f4e4c59207075626c69632e6d657373616765732044524f5020434f4e53545241494e54206d657373616765735f66726f6d5f757365725f6964;
0x5f666b65793b0a010100000000060000007075626c6963010100000001010000000008000000706f737467726573000500000066616c73650003000000323632;
0x00030000003239350004000000333939320101000000000000000000c50f000000000000000004000000323630360005000000313738373000210000006d6573;
0x7361676573206d657373616765735f746f5f757365725f69645f666b6579000d000000464b20434f4e53545241494e5400040000000083000000414c54455220;
0x5441424c45204f4e4c59207075626c69632e6d657373616765730a2020202041444420434f4e53545241494e54206d657373616765735f746f5f757365725f69;
0x645f666b657920464f524549474e204b45592028746f5f757365725f696429205245464552454e434553207075626c69632e7573657273286964293b0a004b00;
0x0000414c544552205441424c45204f4e4c59207075626c69632e6d657373616765732044524f5020434f4e53545241494e54206d657373616765735f746f5f75;
0x7365725f69645f666b65793b0a010100000000060000007075626c6963010100000001010000000008000000706f737467726573000500000066616c73650004;
0x00000033393932000300000032393500030000003236320101000000000000000000c60f0000000000000000040000003236303600050000003137383735001b;
0x0000006e6f64655f74616773206e6f64655f746167735f69645f666b6579000d000000464b20434f4e53545241494e5400040000000091000000414c54455220].
Definition toc_words_11 : list Z := [
0x5441424c45204f4e4c59207075626c69632e6e6f64655f746167730a2020202041444420434f4e53545241494e54206e6f64655f746167735f69645f666b6579;
0x20464f524549474e204b455920286e6f64655f69642c2076657273696f6e29205245464552454e434553207075626c69632e6e6f646573286e6f64655f69642c;
0x2076657273696f6e293b0a0045000000414c544552205441424c45204f4e4c59207075626c69632e6e6f64655f746167732044524f5020434f4e53545241494e;
0x54206e6f64655f746167735f69645f666b65793b0a010100000000060000007075626c6963010100000001010000000008000000706f73746772657300050000;
0x0066616c736500030000003236340004000000333932300003000000323635000300000032363500030000003236340101000000000000000000c70f00000000;
0x00000000040000003236303600050000003137383830001d0000006e6f646573206e6f6465735f6368616e67657365745f69645f666b6579000d000000464b20;
0x434f4e53545241494e5400040000000086000000414c544552205441424c45204f4e4c59207075626c69632e6e6f6465730a2020202041444420434f4e535452;
0x41494e54206e6f6465735f6368616e67657365745f69645f666b657920464f524549474e204b455920286368616e67657365745f696429205245464552454e43;
0x4553207075626c69632e6368616e676573657473286964293b0a0047000000414c544552205441424c45204f4e4c59207075626c69632e6e6f6465732044524f;
0x5020434f4e53545241494e54206e6f6465735f6368616e67657365745f69645f666b65793b0a010100000000060000007075626c696301010000000101000000;
0x0008000000706f737467726573000500000066616c7365000400000033383338000300000032323700030000003236350101000000000000000000c80f000000;
0x0000000000040000003236303600050000003137383835001d0000006e6f646573206e6f6465735f726564616374696f6e5f69645f666b6579000d000000464b;
0x20434f4e53545241494e5400040000000086000000414c544552205441424c45204f4e4c59207075626c69632e6e6f6465730a2020202041444420434f4e5354;
0x5241494e54206e6f6465735f726564616374696f6e5f69645f666b657920464f524549474e204b45592028726564616374696f6e5f696429205245464552454e;
0x434553207075626c69632e726564616374696f6e73286964293b0a0047000000414c544552205441424c45204f4e4c59207075626c69632e6e6f646573204452;
0x4f5020434f4e53545241494e54206e6f6465735f726564616374696f6e5f69645f666b65793b0a010100000000060000007075626c6963010100000001010000;
0x000008000000706f737467726573000500000066616c7365000300000032363500040000003339353700030000003238300101000000000000000000c90f0000;
0x000000000000040000003236303600050000003137383930002a0000006e6f74655f636f6d6d656e7473206e6f74655f636f6d6d656e74735f617574686f725f;
0x69645f666b6579000d000000464b20434f4e53545241494e540004000000008b000000414c544552205441424c45204f4e4c59207075626c69632e6e6f74655f;
0x636f6d6d656e74730a2020202041444420434f4e53545241494e54206e6f74655f636f6d6d656e74735f617574686f725f69645f666b657920464f524549474e;
0x204b45592028617574686f725f696429205245464552454e434553207075626c69632e7573657273286964293b0a0054000000414c544552205441424c45204f;
0x4e4c59207075626c69632e6e6f74655f636f6d6d656e74732044524f5020434f4e53545241494e54206e6f74655f636f6d6d656e74735f617574686f725f6964;
0x5f666b65793b0a010100000000060000007075626c6963010100000001010000000008000000706f737467726573000500000066616c73650003000000323935;
0x00030000003236360004000000333939320101000000000000000000ca0f000000000000000004000000323630360005000000313738393500280000006e6f74;
0x655f636f6d6d656e7473206e6f74655f636f6d6d656e74735f6e6f74655f69645f666b6579000d000000464b20434f4e53545241494e54000400000000870000;
0x00414c544552205441424c45204f4e4c59207075626c69632e6e6f74655f636f6d6d656e74730a2020202041444420434f4e53545241494e54206e6f74655f63;
0x6f6d6d656e74735f6e6f74655f69645f666b657920464f524549474e204b455920286e6f74655f696429205245464552454e434553207075626c69632e6e6f74;
0x6573286964293b0a0052000000414c544552205441424c45204f4e4c59207075626c69632e6e6f74655f636f6d6d656e74732044524f5020434f4e5354524149;
0x4e54206e6f74655f636f6d6d656e74735f6e6f74655f69645f666b65793b0a010100000000060000007075626c6963010100000001010000000008000000706f;
0x737467726573000500000066616c7365000300000032363800030000003236360004000000333933310101000000000000000000d00f00000000000000000400;
0x0000323630360005000000313739303000340000006f617574685f746f6b656e73206f617574685f746f6b656e735f636c69656e745f6170706c69636174696f;
0x6e5f69645f666b6579000d000000464b20434f4e53545241494e54000400000000af000000414c544552205441424c45204f4e4c59207075626c69632e6f6175;
0x74685f746f6b656e730a2020202041444420434f4e53545241494e54206f617574685f746f6b656e735f636c69656e745f6170706c69636174696f6e5f69645f;
0x666b657920464f524549474e204b45592028636c69656e745f6170706c69636174696f6e5f696429205245464552454e434553207075626c69632e636c69656e;
0x745f6170706c69636174696f6e73286964293b0a005e000000414c544552205441424c45204f4e4c59207075626c69632e6f617574685f746f6b656e73204452;
0x4f5020434f4e53545241494e54206f617574685f746f6b656e735f636c69656e745f6170706c69636174696f6e5f69645f666b65793b0a010100000000060000;
0x007075626c6963010100000001010000000008000000706f737467726573000500000066616c7365000300000032333000040000003338343400030000003237;
0x380101000000000000000000d10f000000000000000004000000323630360005000000313739303500260000006f617574685f746f6b656e73206f617574685f;
0x746f6b656e735f757365725f69645f666b6579000d000000464b20434f4e53545241494e5400040000000085000000414c544552205441424c45204f4e4c5920;
0x7075626c69632e6f617574685f746f6b656e730a2020202041444420434f4e53545241494e54206f617574685f746f6b656e735f757365725f69645f666b6579;
0x20464f524549474e204b45592028757365725f696429205245464552454e434553207075626c69632e7573657273286964293b0a0050000000414c5445522054;
0x41424c45204f4e4c59207075626c69632e6f617574685f746f6b656e732044524f5020434f4e53545241494e54206f617574685f746f6b656e735f757365725f;
0x69645f666b65793b0a010100000000060000007075626c6963010100000001010000000008000000706f737467726573000500000066616c7365000300000032;
0x373800030000003239350004000000333939320101000000000000000000d20f0000000000000000040000003236303600050000003137393130002200000072;
0x6564616374696f6e7320726564616374696f6e735f757365725f69645f666b6579000d000000464b20434f4e53545241494e5400040000000081000000414c54;
0x4552205441424c45204f4e4c59207075626c69632e726564616374696f6e730a2020202041444420434f4e53545241494e5420726564616374696f6e735f7573;
0x65725f69645f666b657920464f524549474e204b45592028757365725f696429205245464552454e434553207075626c69632e7573657273286964293b0a004c;
0x000000414c544552205441424c45204f4e4c59207075626c69632e726564616374696f6e732044524f5020434f4e53545241494e5420726564616374696f6e73;
0x5f757365725f69645f666b65793b0a010100000000060000007075626c6963010100000001010000000008000000706f737467726573000500000066616c7365;
0x000400000033393932000300000032393500030000003238300101000000000000000000d30f0000000000000000040000003236303600050000003137393135;
0x002900000072656c6174696f6e5f6d656d626572732072656c6174696f6e5f6d656d626572735f69645f666b6579000d000000464b20434f4e53545241494e54;
0x000400000000ab000000414c544552205441424c45204f4e4c59207075626c69632e72656c6174696f6e5f6d656d626572730a2020202041444420434f4e5354;
0x5241494e542072656c6174696f6e5f6d656d626572735f69645f666b657920464f524549474e204b4559202872656c6174696f6e5f69642c2076657273696f6e;
0x29205245464552454e434553207075626c69632e72656c6174696f6e732872656c6174696f6e5f69642c2076657273696f6e293b0a0053000000414c54455220;
0x5441424c45204f4e4c59207075626c69632e72656c6174696f6e5f6d656d626572732044524f5020434f4e53545241494e542072656c6174696f6e5f6d656d62;
0x6572735f69645f666b65793b0a010100000000060000007075626c6963010100000001010000000008000000706f737467726573000500000066616c73650003;
0x0000003238320003000000323832000400000033393635000300000032383400030000003238340101000000000000000000d40f000000000000000004000000;
0x3236303600050000003137393230002300000072656c6174696f6e5f746167732072656c6174696f6e5f746167735f69645f666b6579000d000000464b20434f;
0x4e53545241494e54000400000000a5000000414c544552205441424c45204f4e4c59207075626c69632e72656c6174696f6e5f746167730a2020202041444420;
0x434f4e53545241494e542072656c6174696f6e5f746167735f69645f666b657920464f524549474e204b4559202872656c6174696f6e5f69642c207665727369;
0x6f6e29205245464552454e434553207075626c69632e72656c6174696f6e732872656c6174696f6e5f69642c2076657273696f6e293b0a004d000000414c5445;
0x52205441424c45204f4e4c59207075626c69632e72656c6174696f6e5f746167732044524f5020434f4e53545241494e542072656c6174696f6e5f746167735f;
0x69645f666b65793b0a010100000000060000007075626c6963010100000001010000000008000000706f737467726573000500000066616c7365000300000032;
0x38330003000000323833000400000033393635000300000032383400030000003238340101000000000000000000d50f00000000000000000400000032363036;
0x00050000003137393235002500000072656c6174696f6e732072656c6174696f6e735f6368616e67657365745f69645f666b6579000d000000464b20434f4e53;
0x545241494e540004000000008e000000414c544552205441424c45204f4e4c59207075626c69632e72656c6174696f6e730a2020202041444420434f4e535452;
0x41494e542072656c6174696f6e735f6368616e67657365745f69645f666b657920464f524549474e204b455920286368616e67657365745f6964292052454645;
0x52454e434553207075626c69632e6368616e676573657473286964293b0a004f000000414c544552205441424c45204f4e4c59207075626c69632e72656c6174;
0x696f6e732044524f5020434f4e53545241494e542072656c6174696f6e735f6368616e67657365745f69645f666b65793b0a010100000000060000007075626c;
0x6963010100000001010000000008000000706f737467726573000500000066616c73650003000000323237000400000033383338000300000032383401010000;
0x00000000000000d60f0000000000000000040000003236303600050000003137393330002500000072656c6174696f6e732072656c6174696f6e735f72656461;
0x6374696f6e5f69645f666b6579000d000000464b20434f4e53545241494e540004000000008e000000414c544552205441424c45204f4e4c59207075626c6963;
0x2e72656c6174696f6e730a2020202041444420434f4e53545241494e542072656c6174696f6e735f726564616374696f6e5f69645f666b657920464f52454947;
0x4e204b45592028726564616374696f6e5f696429205245464552454e434553207075626c69632e726564616374696f6e73286964293b0a004f000000414c5445;
0x52205441424c45204f4e4c59207075626c69632e72656c6174696f6e732044524f5020434f4e53545241494e542072656c6174696f6e735f726564616374696f;
0x6e5f69645f666b65793b0a010100000000060000007075626c6963010100000001010000000008000000706f737467726573000500000066616c736500030000;
0x0032383400040000003339353700030000003238300101000000000000000000d70f0000000000000000040000003236303600050000003137393335001d0000;
0x007265706f727473207265706f7274735f69737375655f69645f666b6579000d000000464b20434f4e53545241494e540004000000007e000000414c54455220;
0x5441424c45204f4e4c59207075626c69632e7265706f7274730a2020202041444420434f4e53545241494e54207265706f7274735f69737375655f69645f666b;
0x657920464f524549474e204b4559202869737375655f696429205245464552454e434553207075626c69632e697373756573286964293b0a0047000000414c54;
0x4552205441424c45204f4e4c59207075626c69632e7265706f7274732044524f5020434f4e53545241494e54207265706f7274735f69737375655f69645f666b;
0x65793b0a010100000000060000007075626c6963010100000001010000000008000000706f737467726573000500000066616c73650003000000323835000400;
0x00003339303900030000003235390101000000000000000000d80f0000000000000000040000003236303600050000003137393430001c0000007265706f7274;
0x73207265706f7274735f757365725f69645f666b6579000d000000464b20434f4e53545241494e540004000000007b000000414c544552205441424c45204f4e;
0x4c59207075626c69632e7265706f7274730a2020202041444420434f4e53545241494e54207265706f7274735f757365725f69645f666b657920464f52454947;
0x4e204b45592028757365725f696429205245464552454e434553207075626c69632e7573657273286964293b0a0046000000414c544552205441424c45204f4e;
0x4c59207075626c69632e7265706f7274732044524f5020434f4e53545241494e54207265706f7274735f757365725f69645f666b65793b0a0101000000000600;
0x00007075626c6963010100000001010000000008000000706f737467726573000500000066616c73650003000000323835000400000033393932000300000032;
0x39350101000000000000000000d90f00000000000000000400000032363036000500000031373934350029000000757365725f626c6f636b7320757365725f62;
0x6c6f636b735f6d6f64657261746f725f69645f666b6579000d000000464b20434f4e53545241494e540004000000008b000000414c544552205441424c45204f;
0x4e4c59207075626c69632e757365725f626c6f636b730a2020202041444420434f4e53545241494e5420757365725f626c6f636b735f6d6f64657261746f725f;
0x69645f666b657920464f524549474e204b4559202863726561746f725f696429205245464552454e434553207075626c69632e7573657273286964293b0a0053;
0x000000414c544552205441424c45204f4e4c59207075626c69632e757365725f626c6f636b732044524f5020434f4e53545241494e5420757365725f626c6f63;
0x6b735f6d6f64657261746f725f69645f666b65793b0a010100000000060000007075626c6963010100000001010000000008000000706f737467726573000500;
0x000066616c7365000400000033393932000300000032383800030000003239350101000000000000000000da0f00000000000000000400000032363036000500;
0x000031373935300027000000757365725f626c6f636b7320757365725f626c6f636b735f7265766f6b65725f69645f666b6579000d000000464b20434f4e5354;
0x5241494e5400040000000089000000414c544552205441424c45204f4e4c59207075626c69632e757365725f626c6f636b730a2020202041444420434f4e5354;
0x5241494e5420757365725f626c6f636b735f7265766f6b65725f69645f666b657920464f524549474e204b455920287265766f6b65725f696429205245464552;
0x454e434553207075626c69632e7573657273286964293b0a0051000000414c544552205441424c45204f4e4c59207075626c69632e757365725f626c6f636b73;
0x2044524f5020434f4e53545241494e5420757365725f626c6f636b735f7265766f6b65725f69645f666b65793b0a010100000000060000007075626c69630101;
0x00000001010000000008000000706f737467726573000500000066616c7365000300000032383800040000003339393200030000003239350101000000000000;
0x000000db0f00000000000000000400000032363036000500000031373935350024000000757365725f626c6f636b7320757365725f626c6f636b735f75736572;
0x5f69645f666b6579000d000000464b20434f4e53545241494e5400040000000083000000414c544552205441424c45204f4e4c59207075626c69632e75736572;
0x5f626c6f636b730a2020202041444420434f4e53545241494e5420757365725f626c6f636b735f757365725f69645f666b657920464f524549474e204b455920;
0x28757365725f696429205245464552454e434553207075626c69632e7573657273286964293b0a004e000000414c544552205441424c45204f4e4c5920707562;
0x6c69632e757365725f626c6f636b732044524f5020434f4e53545241494e5420757365725f626c6f636b735f757365725f69645f666b65793b0a010100000000;
0x060000007075626c6963010100000001010000000008000000706f737467726573000500000066616c7365000300000032383800040000003339393200030000;
0x003239350101000000000000000000dc0f0000000000000000040000003236303600050000003137393630002e000000757365725f707265666572656e636573;
0x20757365725f707265666572656e6365735f757365725f69645f666b6579000d000000464b20434f4e53545241494e540004000000008d000000414c54455220;
0x5441424c45204f4e4c59207075626c69632e757365725f707265666572656e6365730a2020202041444420434f4e53545241494e5420757365725f7072656665;
0x72656e6365735f757365725f69645f666b657920464f524549474e204b45592028757365725f696429205245464552454e434553207075626c69632e75736572;
0x73286964293b0a0058000000414c544552205441424c45204f4e4c59207075626c69632e757365725f707265666572656e6365732044524f5020434f4e535452;
0x41494e5420757365725f707265666572656e6365735f757365725f69645f666b65793b0a010100000000060000007075626c6963010100000001010000000008;
0x000000706f737467726573000500000066616c7365000300000032393500030000003239300004000000333939320101000000000000000000dd0f0000000000;
0x0000000400000032363036000500000031373936350025000000757365725f726f6c657320757365725f726f6c65735f6772616e7465725f69645f666b657900;
0x0d000000464b20434f4e53545241494e5400040000000087000000414c544552205441424c45204f4e4c59207075626c69632e757365725f726f6c65730a2020;
0x202041444420434f4e53545241494e5420757365725f726f6c65735f6772616e7465725f69645f666b657920464f524549474e204b455920286772616e746572;
0x5f696429205245464552454e434553207075626c69632e7573657273286964293b0a004f000000414c544552205441424c45204f4e4c59207075626c69632e75;
0x7365725f726f6c65732044524f5020434f4e53545241494e5420757365725f726f6c65735f6772616e7465725f69645f666b65793b0a01010000000006000000;
0x7075626c6963010100000001010000000008000000706f737467726573000500000066616c736500030000003239350003000000323931000400000033393932;
0x0101000000000000000000de0f00000000000000000400000032363036000500000031373937300022000000757365725f726f6c657320757365725f726f6c65;
0x735f757365725f69645f666b6579000d000000464b20434f4e53545241494e5400040000000081000000414c544552205441424c45204f4e4c59207075626c69;
0x632e757365725f726f6c65730a2020202041444420434f4e53545241494e5420757365725f726f6c65735f757365725f69645f666b657920464f524549474e20;
0x4b45592028757365725f696429205245464552454e434553207075626c69632e7573657273286964293b0a004c000000414c544552205441424c45204f4e4c59;
0x207075626c69632e757365725f726f6c65732044524f5020434f4e53545241494e5420757365725f726f6c65735f757365725f69645f666b65793b0a01010000;
0x0000060000007075626c6963010100000001010000000008000000706f737467726573000500000066616c736500030000003239310003000000323935000400;
0x0000333939320101000000000000000000df0f00000000000000000400000032363036000500000031373937350024000000757365725f746f6b656e73207573;
0x65725f746f6b656e735f757365725f69645f666b6579000d000000464b20434f4e53545241494e5400040000000083000000414c544552205441424c45204f4e;
0x4c59207075626c69632e757365725f746f6b656e730a2020202041444420434f4e53545241494e5420757365725f746f6b656e735f757365725f69645f666b65;
0x7920464f524549474e204b45592028757365725f696429205245464552454e434553207075626c69632e7573657273286964293b0a004e000000414c54455220;
0x5441424c45204f4e4c59207075626c69632e757365725f746f6b656e732044524f5020434f4e53545241494e5420757365725f746f6b656e735f757365725f69;
0x645f666b65793b0a010100000000060000007075626c6963010100000001010000000008000000706f737467726573000500000066616c736500030000003239;
0x3500030000003239330004000000333939320101000000000000000000e00f0000000000000000040000003236303600050000003137393830001b0000007761;
0x795f6e6f646573207761795f6e6f6465735f69645f666b6579000d000000464b20434f4e53545241494e540004000000008e000000414c544552205441424c45;
0x204f4e4c59207075626c69632e7761795f6e6f6465730a2020202041444420434f4e53545241494e54207761795f6e6f6465735f69645f666b657920464f5245;
0x49474e204b455920287761795f69642c2076657273696f6e29205245464552454e434553207075626c69632e77617973287761795f69642c2076657273696f6e;
0x293b0a0045000000414c544552205441424c45204f4e4c59207075626c69632e7761795f6e6f6465732044524f5020434f4e53545241494e54207761795f6e6f;
0x6465735f69645f666b65793b0a010100000000060000007075626c6963010100000001010000000008000000706f737467726573000500000066616c73650004;
0x0000003430303000030000003239370003000000323939000300000032393700030000003239390101000000000000000000e10f000000000000000004000000;
0x323630360005000000313739383500190000007761795f74616773207761795f746167735f69645f666b6579000d000000464b20434f4e53545241494e540004;
0x000000008c000000414c544552205441424c45204f4e4c59207075626c69632e7761795f746167730a2020202041444420434f4e53545241494e54207761795f;
0x746167735f69645f666b657920464f524549474e204b455920287761795f69642c2076657273696f6e29205245464552454e434553207075626c69632e776179;
0x73287761795f69642c2076657273696f6e293b0a0043000000414c544552205441424c45204f4e4c59207075626c69632e7761795f746167732044524f502043;
0x4f4e53545241494e54207761795f746167735f69645f666b65793b0a010100000000060000007075626c6963010100000001010000000008000000706f737467;
0x726573000500000066616c7365000400000034303030000300000032393900030000003239380003000000323938000300000032393901010000000000000000;
0x00e20f0000000000000000040000003236303600050000003137393930001b0000007761797320776179735f6368616e67657365745f69645f666b6579000d00;
0x0000464b20434f4e53545241494e5400040000000084000000414c544552205441424c45204f4e4c59207075626c69632e776179730a2020202041444420434f;
0x4e53545241494e5420776179735f6368616e67657365745f69645f666b657920464f524549474e204b455920286368616e67657365745f696429205245464552;
0x454e434553207075626c69632e6368616e676573657473286964293b0a0045000000414c544552205441424c45204f4e4c59207075626c69632e776179732044;
0x524f5020434f4e53545241494e5420776179735f6368616e67657365745f69645f666b65793b0a010100000000060000007075626c6963010100000001010000;
0x000008000000706f737467726573000500000066616c7365000400000033383338000300000032323700030000003239390101000000000000000000e30f0000;
0x000000000000040000003236303600050000003137393935001b0000007761797320776179735f726564616374696f6e5f69645f666b6579000d000000464b20;
0x434f4e53545241494e5400040000000084000000414c544552205441424c45204f4e4c59207075626c69632e776179730a2020202041444420434f4e53545241;
0x494e5420776179735f726564616374696f6e5f69645f666b657920464f524549474e204b45592028726564616374696f6e5f696429205245464552454e434553;
0x207075626c69632e726564616374696f6e73286964293b0a0045000000414c544552205441424c45204f4e4c59207075626c69632e776179732044524f502043;
0x4f4e53545241494e5420776179735f726564616374696f6e5f69645f666b65793b0a010100000000060000007075626c69630101000000010100000000080000].
Definition toc_words : list Z := toc_words_0 ++ toc_words_1 ++ toc_words_2 ++ toc_words_3 ++ toc_words_4 ++ toc_words_5 ++ toc_words_6 ++ toc_words_7 ++ toc_words_8 ++ toc_words_9 ++ toc_words_10 ++ toc_words_11.
(** the last 54 bytes *)
Definition toc_last : Z := 0x00706f737467726573000500000066616c73650003000000323939000400000033393537000300000032383001010000000000000000.
Definition toc_last_length : nat := 54.
