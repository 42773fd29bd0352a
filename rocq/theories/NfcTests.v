(** Generated by tools/gen_nfc_tests.pl 11 600 - do not edit.
    Random strings with their NFD, NFC and NFKD forms according to perl's
    Unicode::Normalize. *)
From Coq Require Import NArith List.
Import ListNotations.
Local Open Scope N_scope.

Definition t_nfc : list (list N * (list N * list N * list N)) := [
([0xB47;0x77;0x59F;0x1CD0;0x4F;0xB1CC;0x1CD0],([0xB47;0x77;0x59F;0x1CD0;0x4F;0x1102;0x116C;0x1CD0],[0xB47;0x77;0x59F;0x1CD0;0x4F;0xB1CC;0x1CD0],[0xB47;0x77;0x59F;0x1CD0;0x4F;0x1102;0x116C;0x1CD0]));
([0x47;0xCB35;0x6D9;0x4F;0x307;0x1D172;0x6C;0x4EA;0x20A2C],([0x47;0x110D;0x116D;0x11B0;0x6D9;0x4F;0x1D172;0x307;0x6C;0x4E8;0x308;0x20A2C],[0x47;0xCB35;0x6D9;0x22E;0x1D172;0x6C;0x4EA;0x20A2C],[0x47;0x110D;0x116D;0x11B0;0x6D9;0x4F;0x1D172;0x307;0x6C;0x4E8;0x308;0x20A2C]));
([0x105;0xBF65;0x300;0xB2BB],([0x61;0x328;0x1108;0x116A;0x11B0;0x300;0x1102;0x1174;0x11B6],[0x105;0xBF65;0x300;0xB2BB],[0x61;0x328;0x1108;0x116A;0x11B0;0x300;0x1102;0x1174;0x11B6]));
([0x318;0x1E46],([0x318;0x4E;0x323],[0x318;0x1E46],[0x318;0x4E;0x323]));
([0x53F1;0x308;0x388;0x2F905;0xFEEB],([0x53F1;0x308;0x395;0x301;0x6D85;0xFEEB],[0x53F1;0x308;0x388;0x6D85;0xFEEB],[0x53F1;0x308;0x395;0x301;0x6D85;0x647]));
([0x2F888;0x11C2;0x1170;0x110F;0xBD2C],([0x3862;0x11C2;0x1170;0x110F;0x1107;0x116B],[0x3862;0x11C2;0x1170;0x110F;0xBD2C],[0x3862;0x11C2;0x1170;0x110F;0x1107;0x116B]));
([0x7740;0xF9CD;0x1103;0x745;0xB82A;0x314],([0x7740;0x7559;0x1103;0x745;0x1105;0x1167;0x11AD;0x314],[0x7740;0x7559;0x1103;0x745;0xB82A;0x314],[0x7740;0x7559;0x1103;0x745;0x1105;0x1167;0x11AD;0x314]));
([0x1D683],([0x1D683],[0x1D683],[0x54]));
([0xB3E8;0x1167;0x5BF;0xD0B0;0x10F83;0x1163],([0x1103;0x116A;0x11AF;0x1167;0x5BF;0x110F;0x1175;0x11B3;0x10F83;0x1163],[0xB3E8;0x1167;0x5BF;0xD0B0;0x10F83;0x1163],[0x1103;0x116A;0x11AF;0x1167;0x5BF;0x110F;0x1175;0x11B3;0x10F83;0x1163]));
([0x10A38;0x31B;0x3D3;0x302;0x77],([0x31B;0x10A38;0x3D2;0x301;0x302;0x77],[0x31B;0x10A38;0x3D3;0x302;0x77],[0x31B;0x10A38;0x3A5;0x301;0x302;0x77]));
([0x2F8AF;0x1D172;0x110B;0x1D73F;0x5ED9;0x1DD5;0x1174;0x2280;0x69],([0x61DE;0x1D172;0x110B;0x1D73F;0x5ED9;0x1DD5;0x1174;0x227A;0x338;0x69],[0x61DE;0x1D172;0x110B;0x1D73F;0x5ED9;0x1DD5;0x1174;0x2280;0x69],[0x61DE;0x1D172;0x110B;0x3BA;0x5ED9;0x1DD5;0x1174;0x227A;0x338;0x69]));
([0x1DE0;0x1A77;0xC5BF;0x313;0x4B;0x1DF0;0x309A;0x2CF1],([0x1DE0;0x1A77;0x110B;0x1165;0x11B2;0x313;0x4B;0x309A;0x1DF0;0x2CF1],[0x1DE0;0x1A77;0xC5BF;0x313;0x4B;0x309A;0x1DF0;0x2CF1],[0x1DE0;0x1A77;0x110B;0x1165;0x11B2;0x313;0x4B;0x309A;0x1DF0;0x2CF1]));
([0x5BE7;0x22EC;0x308;0x10F4C;0x301;0xA676;0x1F132;0xFA30],([0x5BE7;0x22B4;0x338;0x308;0x10F4C;0x301;0xA676;0x1F132;0x4FAE],[0x5BE7;0x22EC;0x308;0x10F4C;0x301;0xA676;0x1F132;0x4FAE],[0x5BE7;0x22B4;0x338;0x308;0x10F4C;0x301;0xA676;0x43;0x4FAE]));
([0x1F64;0x11173;0x34F],([0x3C9;0x11173;0x313;0x301;0x34F],[0x1F64;0x11173;0x34F],[0x3C9;0x11173;0x313;0x301;0x34F]));
([0x1163],([0x1163],[0x1163],[0x1163]));
([0xADA8;0xBCA0;0x749;0x3B7;0xE48],([0x1100;0x1170;0x11AB;0x1107;0x1166;0x749;0x3B7;0xE48],[0xADA8;0xBCA0;0x749;0x3B7;0xE48],[0x1100;0x1170;0x11AB;0x1107;0x1166;0x749;0x3B7;0xE48]));
([0x306;0x11B5],([0x306;0x11B5],[0x306;0x11B5],[0x306;0x11B5]));
([0x732;0x76CA;0x30F;0xE9;0x1175;0x391;0x1172],([0x732;0x76CA;0x30F;0x65;0x301;0x1175;0x391;0x1172],[0x732;0x76CA;0x30F;0xE9;0x1175;0x391;0x1172],[0x732;0x76CA;0x30F;0x65;0x301;0x1175;0x391;0x1172]));
([0x1172;0x1DFD;0xAD34;0xADAA;0x8218;0x4B;0x8650;0x55;0x7EE],([0x1172;0x1DFD;0x1100;0x116C;0x1100;0x1170;0x11AD;0x8218;0x4B;0x8650;0x55;0x7EE],[0x1172;0x1DFD;0xAD34;0xADAA;0x8218;0x4B;0x8650;0x55;0x7EE],[0x1172;0x1DFD;0x1100;0x116C;0x1100;0x1170;0x11AD;0x8218;0x4B;0x8650;0x55;0x7EE]));
([0x302;0x12F;0x1B35;0x34D;0x11B3;0x2F885],([0x302;0x69;0x328;0x1B35;0x34D;0x11B3;0x5E28],[0x302;0x12F;0x1B35;0x34D;0x11B3;0x5E28],[0x302;0x69;0x328;0x1B35;0x34D;0x11B3;0x5E28]));
([0xA69F;0xF988;0x1E3C;0x1D18A],([0xA69F;0x9E97;0x4C;0x32D;0x1D18A],[0xA69F;0x9E97;0x1E3C;0x1D18A],[0xA69F;0x9E97;0x4C;0x32D;0x1D18A]));
([0xA674;0x17B;0x3B7;0xF99D;0x8FB0;0xFB00;0xA9B3;0x1D165],([0xA674;0x5A;0x307;0x3B7;0x52A3;0x8FB0;0xFB00;0xA9B3;0x1D165],[0xA674;0x17B;0x3B7;0x52A3;0x8FB0;0xFB00;0xA9B3;0x1D165],[0xA674;0x5A;0x307;0x3B7;0x52A3;0x8FB0;0x66;0x66;0xA9B3;0x1D165]));
([0x32C;0x1E11],([0x32C;0x64;0x327],[0x32C;0x1E11],[0x32C;0x64;0x327]));
([0x1166;0x1EC3;0x2F8D0;0x2872E;0xFA2;0x32C;0x368;0x45],([0x1166;0x65;0x302;0x309;0x3B08;0x2872E;0xFA1;0xFB7;0x32C;0x368;0x45],[0x1166;0x1EC3;0x3B08;0x2872E;0xFA1;0xFB7;0x32C;0x368;0x45],[0x1166;0x65;0x302;0x309;0x3B08;0x2872E;0xFA1;0xFB7;0x32C;0x368;0x45]));
([0x734;0x30C;0x8D8;0x96C3],([0x734;0x30C;0x8D8;0x96C3],[0x734;0x30C;0x8D8;0x96C3],[0x734;0x30C;0x8D8;0x96C3]));
([0x742;0x2DF2;0x323;0x742;0x4EAE;0x20EF],([0x742;0x323;0x742;0x2DF2;0x4EAE;0x20EF],[0x742;0x323;0x742;0x2DF2;0x4EAE;0x20EF],[0x742;0x323;0x742;0x2DF2;0x4EAE;0x20EF]));
([0x63;0xAE4C;0x1E72;0x49;0xF74;0x6C;0x10D26;0x2F8B5],([0x63;0x1101;0x1161;0x55;0x324;0x49;0xF74;0x6C;0x10D26;0x62B1],[0x63;0xAE4C;0x1E72;0x49;0xF74;0x6C;0x10D26;0x62B1],[0x63;0x1101;0x1161;0x55;0x324;0x49;0xF74;0x6C;0x10D26;0x62B1]));
([0x1ACB;0x677B;0x4C1;0xFE26;0x2DFE;0xFE2E;0x1173;0x443],([0x1ACB;0x677B;0x416;0x306;0xFE26;0x2DFE;0xFE2E;0x1173;0x443],[0x1ACB;0x677B;0x4C1;0xFE26;0x2DFE;0xFE2E;0x1173;0x443],[0x1ACB;0x677B;0x416;0x306;0xFE26;0x2DFE;0xFE2E;0x1173;0x443]));
([0xE1;0xFB2A;0xABED;0x110BA;0x745;0xD3C],([0x61;0x301;0x5E9;0x110BA;0xABED;0xD3C;0x5C1;0x745],[0xE1;0x5E9;0x110BA;0xABED;0xD3C;0x5C1;0x745],[0x61;0x301;0x5E9;0x110BA;0xABED;0xD3C;0x5C1;0x745]));
([0x2633E;0x2F96B;0x11BD;0x323;0x1112;0xA8E1;0x1E06;0x10D24;0x1193D],([0x2633E;0x25F86;0x11BD;0x323;0x1112;0xA8E1;0x42;0x1193D;0x331;0x10D24],[0x2633E;0x25F86;0x11BD;0x323;0x1112;0xA8E1;0x1E06;0x1193D;0x10D24],[0x2633E;0x25F86;0x11BD;0x323;0x1112;0xA8E1;0x42;0x1193D;0x331;0x10D24]));
([0x59E;0xCDE8],([0x59E;0x110E;0x1171],[0x59E;0xCDE8],[0x59E;0x110E;0x1171]));
([0x6D34;0x57;0xCA77;0x1136C],([0x6D34;0x57;0x110D;0x1166;0x11B6;0x1136C],[0x6D34;0x57;0xCA77;0x1136C],[0x6D34;0x57;0x110D;0x1166;0x11B6;0x1136C]));
([0x1171;0x10AE5],([0x1171;0x10AE5],[0x1171;0x10AE5],[0x1171;0x10AE5]));
([0x82B3;0x1162;0x4A;0x2FA0B;0x114C2],([0x82B3;0x1162;0x4A;0x9C40;0x114C2],[0x82B3;0x1162;0x4A;0x9C40;0x114C2],[0x82B3;0x1162;0x4A;0x9C40;0x114C2]));
([0xFA71;0x11366;0x485;0x42;0x1109;0x51;0x2DE7],([0x51B5;0x11366;0x485;0x42;0x1109;0x51;0x2DE7],[0x51B5;0x11366;0x485;0x42;0x1109;0x51;0x2DE7],[0x51B5;0x11366;0x485;0x42;0x1109;0x51;0x2DE7]));
([0x303;0x2F913;0x592;0x1E00A;0xF985;0xF9FB;0x1174;0x36D],([0x303;0x7039;0x592;0x1E00A;0x792A;0x7099;0x1174;0x36D],[0x303;0x7039;0x592;0x1E00A;0x792A;0x7099;0x1174;0x36D],[0x303;0x7039;0x592;0x1E00A;0x792A;0x7099;0x1174;0x36D]));
([0xA8F1],([0xA8F1],[0xA8F1],[0xA8F1]));
([0x737;0x1171;0x1F9E;0x322;0x1E4EC;0xBA51],([0x737;0x1171;0x397;0x322;0x313;0x342;0x1E4EC;0x345;0x1106;0x1165;0x11C0],[0x737;0x1171;0x1F9E;0x322;0x1E4EC;0xBA51],[0x737;0x1171;0x397;0x322;0x313;0x342;0x1E4EC;0x345;0x1106;0x1165;0x11C0]));
([0x89C;0x21D0;0x65;0xAFB8;0x1CE3],([0x89C;0x21D0;0x65;0x1101;0x116E;0x1CE3],[0x89C;0x21D0;0x65;0xAFB8;0x1CE3],[0x89C;0x21D0;0x65;0x1101;0x116E;0x1CE3]));
([0xEB;0x3C5;0x1111;0xF9CB;0xA3C;0x7A],([0x65;0x308;0x3C5;0x1111;0x6E9C;0xA3C;0x7A],[0xEB;0x3C5;0x1111;0x6E9C;0xA3C;0x7A],[0x65;0x308;0x3C5;0x1111;0x6E9C;0xA3C;0x7A]));
([0xA6F1;0x953;0xC3E0;0xB8B0;0xF84;0x11BC;0x49E6],([0xA6F1;0x953;0x110A;0x1169;0x11AF;0x1105;0x116C;0xF84;0x11BC;0x49E6],[0xA6F1;0x953;0xC3E0;0xB8B0;0xF84;0x11BC;0x49E6],[0xA6F1;0x953;0x110A;0x1169;0x11AF;0x1105;0x116C;0xF84;0x11BC;0x49E6]));
([0xFE26;0x314],([0xFE26;0x314],[0xFE26;0x314],[0xFE26;0x314]));
([0xD5AC;0xB060;0x1DCE;0x327;0x1D4F8;0x65C;0x47;0x54;0x1104],([0x1112;0x1164;0x1101;0x1174;0x327;0x1DCE;0x1D4F8;0x65C;0x47;0x54;0x1104],[0xD5AC;0xB060;0x327;0x1DCE;0x1D4F8;0x65C;0x47;0x54;0x1104],[0x1112;0x1164;0x1101;0x1174;0x327;0x1DCE;0x6F;0x65C;0x47;0x54;0x1104]));
([0xF92D;0xAAB2;0x6F;0x6D77;0x82A;0xF93D;0xB741;0x31F;0x11F42],([0x4F86;0xAAB2;0x6F;0x6D77;0x82A;0x7DA0;0x1104;0x1173;0x11C0;0x11F42;0x31F],[0x4F86;0xAAB2;0x6F;0x6D77;0x82A;0x7DA0;0xB741;0x11F42;0x31F],[0x4F86;0xAAB2;0x6F;0x6D77;0x82A;0x7DA0;0x1104;0x1173;0x11C0;0x11F42;0x31F]));
([0xC250;0xFEB6;0x11BF],([0x1109;0x1170;0xFEB6;0x11BF],[0xC250;0xFEB6;0x11BF],[0x1109;0x1170;0x634;0x11BF]));
([0x306;0xC3CE;0x1E024;0x306;0xF912],([0x306;0x110A;0x1168;0x11B9;0x1E024;0x306;0x88F8],[0x306;0xC3CE;0x1E024;0x306;0x88F8],[0x306;0x110A;0x1168;0x11B9;0x1E024;0x306;0x88F8]));
([0x31B;0x50;0x5C2],([0x31B;0x50;0x5C2],[0x31B;0x50;0x5C2],[0x31B;0x50;0x5C2]));
([0x2F966;0x1D49F;0xC798;0x1039;0x2248;0x20D5;0x345],([0x7CD2;0x1D49F;0x110C;0x1161;0x11AF;0x1039;0x2248;0x20D5;0x345],[0x7CD2;0x1D49F;0xC798;0x1039;0x2248;0x20D5;0x345],[0x7CD2;0x44;0x110C;0x1161;0x11AF;0x1039;0x2248;0x20D5;0x345]));
([0x3161;0x11C1;0x45C;0x1CD8],([0x3161;0x11C1;0x43A;0x1CD8;0x301],[0x3161;0x11C1;0x45C;0x1CD8],[0x1173;0x11C1;0x43A;0x1CD8;0x301]));
([0x7BC9;0x11AF;0x313;0x55;0x1F8B;0xCD5C;0xF94D],([0x7BC9;0x11AF;0x313;0x55;0x391;0x314;0x300;0x345;0x110E;0x116C;0x6DDA],[0x7BC9;0x11AF;0x313;0x55;0x1F8B;0xCD5C;0x6DDA],[0x7BC9;0x11AF;0x313;0x55;0x391;0x314;0x300;0x345;0x110E;0x116C;0x6DDA]));
([0xF80],([0xF80],[0xF80],[0xF80]));
([0x82A;0x10F4D;0x1E85;0x5D50;0xF91D;0x1174;0x8ED],([0x10F4D;0x82A;0x77;0x308;0x5D50;0x6B04;0x1174;0x8ED],[0x10F4D;0x82A;0x1E85;0x5D50;0x6B04;0x1174;0x8ED],[0x10F4D;0x82A;0x77;0x308;0x5D50;0x6B04;0x1174;0x8ED]));
([0x2FC6;0x1D580;0x8E8;0x1CD6;0x16B32;0x75E2;0x5EC9;0x1F54],([0x2FC6;0x1D580;0x1CD6;0x8E8;0x16B32;0x75E2;0x5EC9;0x3C5;0x313;0x301],[0x2FC6;0x1D580;0x1CD6;0x8E8;0x16B32;0x75E2;0x5EC9;0x1F54],[0x9EA5;0x55;0x1CD6;0x8E8;0x16B32;0x75E2;0x5EC9;0x3C5;0x313;0x301]));
([0xCDFC;0x48;0x62FC;0x2F9BB;0x303],([0x110E;0x1171;0x11BB;0x48;0x62FC;0x8779;0x303],[0xCDFC;0x48;0x62FC;0x8779;0x303],[0x110E;0x1171;0x11BB;0x48;0x62FC;0x8779;0x303]));
([0x1DE8;0x5C1],([0x5C1;0x1DE8],[0x5C1;0x1DE8],[0x5C1;0x1DE8]));
([0x110F;0x6DC;0x20DC;0x232A;0x1B35;0x1D189;0x748;0x42;0x1B34],([0x110F;0x6DC;0x20DC;0x3009;0x1B35;0x748;0x1D189;0x42;0x1B34],[0x110F;0x6DC;0x20DC;0x3009;0x1B35;0x748;0x1D189;0x42;0x1B34],[0x110F;0x6DC;0x20DC;0x3009;0x1B35;0x748;0x1D189;0x42;0x1B34]));
([0x1D4B9;0x89F;0x306;0x1A0;0x1F236],([0x1D4B9;0x89F;0x306;0x4F;0x31B;0x1F236],[0x1D4B9;0x89F;0x306;0x1A0;0x1F236],[0x64;0x89F;0x306;0x4F;0x31B;0x6709]));
([0x116D;0x1DD8],([0x116D;0x1DD8],[0x116D;0x1DD8],[0x116D;0x1DD8]));
([0x22AB],([0x22AB],[0x22AB],[0x22AB]));
([0xC330],([0x110A;0x1163],[0xC330],[0x110A;0x1163]));
([0x6DA;0xFE23],([0x6DA;0xFE23],[0x6DA;0xFE23],[0x6DA;0xFE23]));
([0x346;0xC6CB;0x116D;0x308;0x318;0x2F8EE;0x10F4A;0x8EE;0x338],([0x346;0x110B;0x116E;0x11C2;0x116D;0x318;0x308;0x3C18;0x338;0x8EE;0x10F4A],[0x346;0xC6CB;0x116D;0x318;0x308;0x3C18;0x338;0x8EE;0x10F4A],[0x346;0x110B;0x116E;0x11C2;0x116D;0x318;0x308;0x3C18;0x338;0x8EE;0x10F4A]));
([0x1FCD;0xAF9C;0xFE29;0xFA5B;0x1102;0x8005],([0x1FBF;0x300;0x1101;0x116D;0xFE29;0x8005;0x1102;0x8005],[0x1FCD;0xAF9C;0xFE29;0x8005;0x1102;0x8005],[0x20;0x313;0x300;0x1101;0x116D;0xFE29;0x8005;0x1102;0x8005]));
([0x6E8;0x3052;0x55C0],([0x6E8;0x3051;0x3099;0x55C0],[0x6E8;0x3052;0x55C0],[0x6E8;0x3051;0x3099;0x55C0]));
([0xF977;0x2F8C7],([0x4EAE;0x3A6C],[0x4EAE;0x3A6C],[0x4EAE;0x3A6C]));
([0xF9DF;0xAC54;0x41;0x8F7;0x1168;0x30AF],([0x5C65;0x1100;0x1164;0x41;0x8F7;0x1168;0x30AF],[0x5C65;0xAC54;0x41;0x8F7;0x1168;0x30AF],[0x5C65;0x1100;0x1164;0x41;0x8F7;0x1168;0x30AF]));
([0x308;0x1B0B;0xD46;0x2FA03;0x308;0xBA2A;0x10A3A],([0x308;0x1B0B;0xD46;0x4B33;0x308;0x1106;0x1164;0x11B5;0x10A3A],[0x308;0x1B0B;0xD46;0x4B33;0x308;0xBA2A;0x10A3A],[0x308;0x1B0B;0xD46;0x4B33;0x308;0x1106;0x1164;0x11B5;0x10A3A]));
([0x1E7F;0x523B;0x1108;0x1DE0;0x116B;0x7FD;0x49],([0x76;0x323;0x523B;0x1108;0x1DE0;0x116B;0x7FD;0x49],[0x1E7F;0x523B;0x1108;0x1DE0;0x116B;0x7FD;0x49],[0x76;0x323;0x523B;0x1108;0x1DE0;0x116B;0x7FD;0x49]));
([0x49;0x1FAE;0x8910;0x308;0x2F91D;0x69],([0x49;0x3A9;0x313;0x342;0x345;0x8910;0x308;0x24263;0x69],[0x49;0x1FAE;0x8910;0x308;0x24263;0x69],[0x49;0x3A9;0x313;0x342;0x345;0x8910;0x308;0x24263;0x69]));
([0x10A3F],([0x10A3F],[0x10A3F],[0x10A3F]));
([0x1D17E;0x1FB2],([0x1D17E;0x3B1;0x300;0x345],[0x1D17E;0x1FB2],[0x1D17E;0x3B1;0x300;0x345]));
([0x1100;0x327;0xBA79;0x93C;0x1D65B;0x78;0x6C],([0x1100;0x327;0x1106;0x1167;0x11B0;0x93C;0x1D65B;0x78;0x6C],[0x1100;0x327;0xBA79;0x93C;0x1D65B;0x78;0x6C],[0x1100;0x327;0x1106;0x1167;0x11B0;0x93C;0x66;0x78;0x6C]));
([0x1CD5;0x313;0x10D25;0x11A8],([0x1CD5;0x313;0x10D25;0x11A8],[0x1CD5;0x313;0x10D25;0x11A8],[0x1CD5;0x313;0x10D25;0x11A8]));
([0x1136C;0x49;0x71;0xBC46;0x43;0x309;0x732A;0x2F8B7;0x308],([0x1136C;0x49;0x71;0x1107;0x1162;0x11BD;0x43;0x309;0x732A;0x6350;0x308],[0x1136C;0x49;0x71;0xBC46;0x43;0x309;0x732A;0x6350;0x308],[0x1136C;0x49;0x71;0x1107;0x1162;0x11BD;0x43;0x309;0x732A;0x6350;0x308]));
([0x302;0x1C37;0xA5E;0x70],([0x1C37;0x302;0xA2B;0xA3C;0x70],[0x1C37;0x302;0xA2B;0xA3C;0x70],[0x1C37;0x302;0xA2B;0xA3C;0x70]));
([0xB530;0x300;0x2DF0;0x7A40;0x1E946;0x26FB1;0x11AD;0x1B3B;0xF978],([0x1104;0x1161;0x300;0x2DF0;0x7A40;0x1E946;0x26FB1;0x11AD;0x1B3A;0x1B35;0x5169],[0xB530;0x300;0x2DF0;0x7A40;0x1E946;0x26FB1;0x11AD;0x1B3B;0x5169],[0x1104;0x1161;0x300;0x2DF0;0x7A40;0x1E946;0x26FB1;0x11AD;0x1B3A;0x1B35;0x5169]));
([0x1E2AE;0x301;0x916;0x5BE7;0x395],([0x1E2AE;0x301;0x916;0x5BE7;0x395],[0x1E2AE;0x301;0x916;0x5BE7;0x395],[0x1E2AE;0x301;0x916;0x5BE7;0x395]));
([0x1E4EF],([0x1E4EF],[0x1E4EF],[0x1E4EF]));
([0x5C7;0x62;0x328;0x72AF;0x1E4EC;0x1FE1;0x11BC;0x4A;0x3099],([0x5C7;0x62;0x328;0x72AF;0x1E4EC;0x3C5;0x304;0x11BC;0x4A;0x3099],[0x5C7;0x62;0x328;0x72AF;0x1E4EC;0x1FE1;0x11BC;0x4A;0x3099],[0x5C7;0x62;0x328;0x72AF;0x1E4EC;0x3C5;0x304;0x11BC;0x4A;0x3099]));
([0x399;0x30D;0x1DD5;0xBA54;0x2F9EE],([0x399;0x30D;0x1DD5;0x1106;0x1166;0x958B],[0x399;0x30D;0x1DD5;0xBA54;0x958B],[0x399;0x30D;0x1DD5;0x1106;0x1166;0x958B]));
([0x110C;0xFA5E],([0x110C;0x8279],[0x110C;0x8279],[0x110C;0x8279]));
([0x9BC;0xF96D;0x2DE9;0x1E33;0x65],([0x9BC;0x7701;0x2DE9;0x6B;0x323;0x65],[0x9BC;0x7701;0x2DE9;0x1E33;0x65],[0x9BC;0x7701;0x2DE9;0x6B;0x323;0x65]));
([0x739],([0x739],[0x739],[0x739]));
([0x397;0x1AB9;0x1DF5;0x8FD;0x301],([0x397;0x1AB9;0x1DF5;0x8FD;0x301],[0x397;0x1AB9;0x1DF5;0x8FD;0x301],[0x397;0x1AB9;0x1DF5;0x8FD;0x301]));
([0x11C0;0xFF3C;0x10A38],([0x11C0;0xFF3C;0x10A38],[0x11C0;0xFF3C;0x10A38],[0x11C0;0x5C;0x10A38]));
([0x8ABF;0x1D18A;0x8CC1;0x49;0x86A9;0x8F0],([0x8ABF;0x1D18A;0x8CC1;0x49;0x86A9;0x8F0],[0x8ABF;0x1D18A;0x8CC1;0x49;0x86A9;0x8F0],[0x8ABF;0x1D18A;0x8CC1;0x49;0x86A9;0x8F0]));
([0xFA69;0xBD7],([0x97FF;0xBD7],[0x97FF;0xBD7],[0x97FF;0xBD7]));
([0x1103;0x11B7],([0x1103;0x11B7],[0x1103;0x11B7],[0x1103;0x11B7]));
([0xFE2C;0x2F838],([0xFE2C;0x20B63],[0xFE2C;0x20B63],[0xFE2C;0x20B63]));
([0x327],([0x327],[0x327],[0x327]));
([0xF9C7;0x2286;0x4B;0x819],([0x5289;0x2286;0x4B;0x819],[0x5289;0x2286;0x4B;0x819],[0x5289;0x2286;0x4B;0x819]));
([0xC756;0x327],([0x110B;0x1173;0x11C1;0x327],[0xC756;0x327],[0x110B;0x1173;0x11C1;0x327]));
([0x1FB6;0x1167;0x58;0x1134D;0x49;0x671B;0x325],([0x3B1;0x342;0x1167;0x58;0x1134D;0x49;0x671B;0x325],[0x1FB6;0x1167;0x58;0x1134D;0x49;0x671B;0x325],[0x3B1;0x342;0x1167;0x58;0x1134D;0x49;0x671B;0x325]));
([0x2F54;0x4F;0x8CC;0x1173;0x11BE;0x303],([0x2F54;0x4F;0x8CC;0x1173;0x11BE;0x303],[0x2F54;0x4F;0x8CC;0x1173;0x11BE;0x303],[0x6C34;0x4F;0x8CC;0x1173;0x11BE;0x303]));
([0x69;0x70;0x1D181;0x1F63;0x300;0x1105;0x1DD3],([0x69;0x70;0x1D181;0x3C9;0x314;0x300;0x300;0x1105;0x1DD3],[0x69;0x70;0x1D181;0x1F63;0x300;0x1105;0x1DD3],[0x69;0x70;0x1D181;0x3C9;0x314;0x300;0x300;0x1105;0x1DD3]));
([0x1A17;0x6350;0x79;0x1D66],([0x1A17;0x6350;0x79;0x1D66],[0x1A17;0x6350;0x79;0x1D66],[0x1A17;0x6350;0x79;0x3B2]));
([0x9ECE;0x10B],([0x9ECE;0x63;0x307],[0x9ECE;0x10B],[0x9ECE;0x63;0x307]));
([0x1CD1;0xAAB7;0x1E135;0xBA70;0x8D3],([0x1CD1;0xAAB7;0x1E135;0x1106;0x1167;0x8D3],[0x1CD1;0xAAB7;0x1E135;0xBA70;0x8D3],[0x1CD1;0xAAB7;0x1E135;0x1106;0x1167;0x8D3]));
([0xAAC1;0x1D171;0xFA89],([0x1D171;0xAAC1;0x618E],[0x1D171;0xAAC1;0x618E],[0x1D171;0xAAC1;0x618E]));
([0x36F;0x2F1A;0xD8;0x3052;0x1133C;0x67;0x6649],([0x36F;0x2F1A;0xD8;0x3051;0x1133C;0x3099;0x67;0x6649],[0x36F;0x2F1A;0xD8;0x3052;0x1133C;0x67;0x6649],[0x36F;0x5382;0xD8;0x3051;0x1133C;0x3099;0x67;0x6649]));
([0x22E0],([0x227C;0x338],[0x22E0],[0x227C;0x338]));
([0x6C1;0x1106;0xFA32;0xF96B;0x1E944;0x1D1BC],([0x6C1;0x1106;0x514D;0x53C3;0x1E944;0x1D1BA;0x1D165],[0x6C1;0x1106;0x514D;0x53C3;0x1E944;0x1D1BA;0x1D165],[0x6C1;0x1106;0x514D;0x53C3;0x1E944;0x1D1BA;0x1D165]));
([0x178],([0x59;0x308],[0x178],[0x59;0x308]));
([0x55;0x1ABB;0x743],([0x55;0x1ABB;0x743],[0x55;0x1ABB;0x743],[0x55;0x1ABB;0x743]));
([0x1167;0x305E;0x5D19;0x57],([0x1167;0x305D;0x3099;0x5D19;0x57],[0x1167;0x305E;0x5D19;0x57],[0x1167;0x305D;0x3099;0x5D19;0x57]));
([0x10EFE;0x1170;0xC9;0x306;0xB6D4],([0x10EFE;0x1170;0x45;0x301;0x306;0x1104;0x1170],[0x10EFE;0x1170;0xC9;0x306;0xB6D4],[0x10EFE;0x1170;0x45;0x301;0x306;0x1104;0x1170]));
([0x6881;0x5C2;0x2F9F0;0xAFA0;0xBCF4;0x8B80;0x16B36],([0x6881;0x5C2;0x95B7;0x1101;0x116D;0x11AB;0x1107;0x1169;0x8B80;0x16B36],[0x6881;0x5C2;0x95B7;0xAFA0;0xBCF4;0x8B80;0x16B36],[0x6881;0x5C2;0x95B7;0x1101;0x116D;0x11AB;0x1107;0x1169;0x8B80;0x16B36]));
([0x11101;0xFE23;0xCC98;0xB5BB;0x89C;0x10A39],([0x11101;0xFE23;0x110E;0x1165;0x1104;0x1165;0x11C2;0x10A39;0x89C],[0x11101;0xFE23;0xCC98;0xB5BB;0x10A39;0x89C],[0x11101;0xFE23;0x110E;0x1165;0x1104;0x1165;0x11C2;0x10A39;0x89C]));
([0x75;0xB57;0x308;0x342;0x514D;0x304;0xB52E;0x1DD7],([0x75;0xB57;0x308;0x342;0x514D;0x304;0x1103;0x1175;0x11C1;0x1DD7],[0x75;0xB57;0x308;0x342;0x514D;0x304;0xB52E;0x1DD7],[0x75;0xB57;0x308;0x342;0x514D;0x304;0x1103;0x1175;0x11C1;0x1DD7]));
([0x216EA],([0x216EA],[0x216EA],[0x216EA]));
([0x114BD],([0x114BD],[0x114BD],[0x114BD]));
([0x307;0x8279;0x101FD;0x418;0x43E;0xF56;0x7A],([0x307;0x8279;0x101FD;0x418;0x43E;0xF56;0x7A],[0x307;0x8279;0x101FD;0x418;0x43E;0xF56;0x7A],[0x307;0x8279;0x101FD;0x418;0x43E;0xF56;0x7A]));
([0x1DDD;0x5FF5;0x1E08F;0xC4D4;0x7A40],([0x1DDD;0x5FF5;0x1E08F;0x110A;0x1172;0x7A40],[0x1DDD;0x5FF5;0x1E08F;0xC4D4;0x7A40],[0x1DDD;0x5FF5;0x1E08F;0x110A;0x1172;0x7A40]));
([0x1F99;0x61;0x30B7;0xB47;0x5468;0x1FA8;0x1D52D;0x5AE],([0x397;0x314;0x345;0x61;0x30B7;0xB47;0x5468;0x3A9;0x313;0x345;0x1D52D;0x5AE],[0x1F99;0x61;0x30B7;0xB47;0x5468;0x1FA8;0x1D52D;0x5AE],[0x397;0x314;0x345;0x61;0x30B7;0xB47;0x5468;0x3A9;0x313;0x345;0x70;0x5AE]));
([0x115BF;0x1BC9E;0x1EE8C;0x338;0x95B7;0x8B58],([0x1BC9E;0x115BF;0x1EE8C;0x338;0x95B7;0x8B58],[0x1BC9E;0x115BF;0x1EE8C;0x338;0x95B7;0x8B58],[0x1BC9E;0x115BF;0x645;0x338;0x95B7;0x8B58]));
([0x1734;0x74;0x264DA;0x313;0x2F848],([0x1734;0x74;0x264DA;0x313;0x55AB],[0x1734;0x74;0x264DA;0x313;0x55AB],[0x1734;0x74;0x264DA;0x313;0x55AB]));
([0x48;0x302A],([0x48;0x302A],[0x48;0x302A],[0x48;0x302A]));
([0x1175;0xD2D4;0x59D8;0x342;0x116C;0x1EB8;0x4B;0x30C;0x1112],([0x1175;0x1110;0x1174;0x59D8;0x342;0x116C;0x45;0x323;0x4B;0x30C;0x1112],[0x1175;0xD2D4;0x59D8;0x342;0x116C;0x1EB8;0x1E8;0x1112],[0x1175;0x1110;0x1174;0x59D8;0x342;0x116C;0x45;0x323;0x4B;0x30C;0x1112]));
([0x307;0x6DC;0xCF8D;0x6E8;0x1AC2;0x79;0x730;0x61],([0x307;0x6DC;0x110F;0x116B;0x11A8;0x6E8;0x1AC2;0x79;0x730;0x61],[0x307;0x6DC;0xCF8D;0x6E8;0x1AC2;0x79;0x730;0x61],[0x307;0x6DC;0x110F;0x116B;0x11A8;0x6E8;0x1AC2;0x79;0x730;0x61]));
([0x151;0x1DCC;0x2F64;0x306;0x301;0x2F98E;0xF9CD],([0x6F;0x30B;0x1DCC;0x2F64;0x306;0x301;0x446B;0x7559],[0x151;0x1DCC;0x2F64;0x306;0x301;0x446B;0x7559],[0x6F;0x30B;0x1DCC;0x7528;0x306;0x301;0x446B;0x7559]));
([0x1EC6;0x11A9;0x308],([0x45;0x323;0x302;0x11A9;0x308],[0x1EC6;0x11A9;0x308],[0x45;0x323;0x302;0x11A9;0x308]));
([0x6D41],([0x6D41],[0x6D41],[0x6D41]));
([0xFC4C;0xF9E4;0x399;0x2F9C3;0x1D157;0x72;0x338;0x343;0x8ED],([0xFC4C;0x7406;0x399;0x8860;0x1D157;0x72;0x338;0x8ED;0x313],[0xFC4C;0x7406;0x399;0x8860;0x1D157;0x72;0x338;0x8ED;0x313],[0x646;0x62D;0x7406;0x399;0x8860;0x1D157;0x72;0x338;0x8ED;0x313]));
([0x1EBB;0x2F9FD;0x76;0x1163;0x1DC2;0x1167;0x303;0x20EC],([0x65;0x309;0x29496;0x76;0x1163;0x1DC2;0x1167;0x20EC;0x303],[0x1EBB;0x29496;0x76;0x1163;0x1DC2;0x1167;0x20EC;0x303],[0x65;0x309;0x29496;0x76;0x1163;0x1DC2;0x1167;0x20EC;0x303]));
([0x4F4;0xA8;0x11B9;0x58;0x2DE1;0x4F],([0x427;0x308;0xA8;0x11B9;0x58;0x2DE1;0x4F],[0x4F4;0xA8;0x11B9;0x58;0x2DE1;0x4F],[0x427;0x308;0x20;0x308;0x11B9;0x58;0x2DE1;0x4F]));
([0x2921A;0xF9A4;0x314;0xFC02;0x1B09;0x93C;0xFA9E],([0x2921A;0x637B;0x314;0xFC02;0x1B09;0x93C;0x7235],[0x2921A;0x637B;0x314;0xFC02;0x1B09;0x93C;0x7235],[0x2921A;0x637B;0x314;0x64A;0x654;0x645;0x1B09;0x93C;0x7235]));
([0x8E7;0x345;0x8E8;0x61A;0x711;0x11BC;0x3099;0x4D;0x36A],([0x61A;0x711;0x8E7;0x8E8;0x345;0x11BC;0x3099;0x4D;0x36A],[0x61A;0x711;0x8E7;0x8E8;0x345;0x11BC;0x3099;0x4D;0x36A],[0x61A;0x711;0x8E7;0x8E8;0x345;0x11BC;0x3099;0x4D;0x36A]));
([0x20DC;0x20D5;0x8DBC;0x1193D;0x6B],([0x20DC;0x20D5;0x8DBC;0x1193D;0x6B],[0x20DC;0x20D5;0x8DBC;0x1193D;0x6B],[0x20DC;0x20D5;0x8DBC;0x1193D;0x6B]));
([0x2DE7;0xB4B;0x3B5;0x1110;0x8F2;0x2F985;0x2047;0x3079],([0x2DE7;0xB47;0xB3E;0x3B5;0x1110;0x8F2;0x813E;0x2047;0x3078;0x3099],[0x2DE7;0xB4B;0x3B5;0x1110;0x8F2;0x813E;0x2047;0x3079],[0x2DE7;0xB47;0xB3E;0x3B5;0x1110;0x8F2;0x813E;0x3F;0x3F;0x3078;0x3099]));
([0x618E;0x1DFD;0x110B;0x2F9BA;0x5A],([0x618E;0x1DFD;0x110B;0x86E2;0x5A],[0x618E;0x1DFD;0x110B;0x86E2;0x5A],[0x618E;0x1DFD;0x110B;0x86E2;0x5A]));
([0x735],([0x735],[0x735],[0x735]));
([0x11AC],([0x11AC],[0x11AC],[0x11AC]));
([0x397;0x306],([0x397;0x306],[0x397;0x306],[0x397;0x306]));
([0x654;0x1DE9;0x320;0x34BB;0xFA7D;0x3B08],([0x320;0x654;0x1DE9;0x34BB;0x58B3;0x3B08],[0x320;0x654;0x1DE9;0x34BB;0x58B3;0x3B08],[0x320;0x654;0x1DE9;0x34BB;0x58B3;0x3B08]));
([0x6383;0x46;0xA675;0x8363;0x1DCF;0x327],([0x6383;0x46;0xA675;0x8363;0x327;0x1DCF],[0x6383;0x46;0xA675;0x8363;0x327;0x1DCF],[0x6383;0x46;0xA675;0x8363;0x327;0x1DCF]));
([0x303;0xA8F0;0x328;0x1E01F;0xC51E;0x2F868;0x5406;0x116B],([0x328;0x303;0xA8F0;0x1E01F;0x110A;0x1174;0x11B9;0x36FC;0x5406;0x116B],[0x328;0x303;0xA8F0;0x1E01F;0xC51E;0x36FC;0x5406;0x116B],[0x328;0x303;0xA8F0;0x1E01F;0x110A;0x1174;0x11B9;0x36FC;0x5406;0x116B]));
([0xB8CC;0x70;0x1CF4;0x11B7;0x1D4;0x334;0x1DC6],([0x1105;0x116D;0x70;0x1CF4;0x11B7;0x75;0x334;0x30C;0x1DC6],[0xB8CC;0x70;0x1CF4;0x11B7;0x1D4;0x334;0x1DC6],[0x1105;0x116D;0x70;0x1CF4;0x11B7;0x75;0x334;0x30C;0x1DC6]));
([0xD53C],([0x1111;0x1175],[0xD53C],[0x1111;0x1175]));
([0x5C7;0x5EB6;0x4C;0x7C7B;0x300;0x2F8D8;0x323;0xBA8C],([0x5C7;0x5EB6;0x4C;0x7C7B;0x300;0x6717;0x323;0x1106;0x1168],[0x5C7;0x5EB6;0x4C;0x7C7B;0x300;0x6717;0x323;0xBA8C],[0x5C7;0x5EB6;0x4C;0x7C7B;0x300;0x6717;0x323;0x1106;0x1168]));
([0x1E39;0xA3C],([0x6C;0xA3C;0x323;0x304],[0x1E39;0xA3C],[0x6C;0xA3C;0x323;0x304]));
([0x1173;0x1D797;0xB627;0x301;0x654;0x59E],([0x1173;0x1D797;0x1104;0x1169;0x11BE;0x301;0x654;0x59E],[0x1173;0x1D797;0xB627;0x301;0x654;0x59E],[0x1173;0x398;0x1104;0x1169;0x11BE;0x301;0x654;0x59E]));
([0x11B8;0x16B33;0xFAB1;0x41;0x36C],([0x11B8;0x16B33;0x7F3E;0x41;0x36C],[0x11B8;0x16B33;0x7F3E;0x41;0x36C],[0x11B8;0x16B33;0x7F3E;0x41;0x36C]));
([0x22A;0x2F9C7],([0x4F;0x308;0x304;0x88DE],[0x22A;0x88DE],[0x4F;0x308;0x304;0x88DE]));
([0x399],([0x399],[0x399],[0x399]));
([0x5510;0x1B6B;0xF9C0;0x11347;0xACFC;0xBF40;0x11A8;0x1F87;0x11BC],([0x5510;0x1B6B;0x71CE;0x11347;0x1100;0x116A;0x1108;0x1169;0x11A8;0x3B1;0x314;0x342;0x345;0x11BC],[0x5510;0x1B6B;0x71CE;0x11347;0xACFC;0xBF41;0x1F87;0x11BC],[0x5510;0x1B6B;0x71CE;0x11347;0x1100;0x116A;0x1108;0x1169;0x11A8;0x3B1;0x314;0x342;0x345;0x11BC]));
([0x898B;0x2F9A4;0x1F3A;0xBA65;0x1B35;0x7A],([0x898B;0x26C36;0x399;0x313;0x300;0x1106;0x1166;0x11B8;0x1B35;0x7A],[0x898B;0x26C36;0x1F3A;0xBA65;0x1B35;0x7A],[0x898B;0x26C36;0x399;0x313;0x300;0x1106;0x1166;0x11B8;0x1B35;0x7A]));
([0x1DC5;0x72;0x1F84],([0x1DC5;0x72;0x3B1;0x313;0x301;0x345],[0x1DC5;0x72;0x1F84],[0x1DC5;0x72;0x3B1;0x313;0x301;0x345]));
([0x2275;0x96E2;0x6A;0x4A76;0xBCF3;0xE49],([0x2273;0x338;0x96E2;0x6A;0x4A76;0x1107;0x1168;0x11C2;0xE49],[0x2275;0x96E2;0x6A;0x4A76;0xBCF3;0xE49],[0x2273;0x338;0x96E2;0x6A;0x4A76;0x1107;0x1168;0x11C2;0xE49]));
([0x4E],([0x4E],[0x4E],[0x4E]));
([0x53;0x11C0;0x65D;0x74;0xB47;0x55;0x5306],([0x53;0x11C0;0x65D;0x74;0xB47;0x55;0x5306],[0x53;0x11C0;0x65D;0x74;0xB47;0x55;0x5306],[0x53;0x11C0;0x65D;0x74;0xB47;0x55;0x5306]));
([0x304;0x1D182;0x316],([0x1D182;0x316;0x304],[0x1D182;0x316;0x304],[0x1D182;0x316;0x304]));
([0x1DDA;0x1A76;0x5F2;0x338;0x52;0x308;0xC695;0x30C5],([0x1DDA;0x1A76;0x5F2;0x338;0x52;0x308;0x110B;0x116D;0x11A8;0x30C4;0x3099],[0x1DDA;0x1A76;0x5F2;0x338;0x52;0x308;0xC695;0x30C5],[0x1DDA;0x1A76;0x5F2;0x338;0x52;0x308;0x110B;0x116D;0x11A8;0x30C4;0x3099]));
([0x931;0xD37C;0x2FA0F;0x1CD1;0x308],([0x930;0x93C;0x1111;0x1165;0x9D67;0x1CD1;0x308],[0x931;0xD37C;0x9D67;0x1CD1;0x308],[0x930;0x93C;0x1111;0x1165;0x9D67;0x1CD1;0x308]));
([0x11B0;0x11446],([0x11B0;0x11446],[0x11B0;0x11446],[0x11B0;0x11446]));
([0xC4AD;0x1105;0x11AC;0x110C;0x8DC],([0x110A;0x1170;0x11B8;0x1105;0x11AC;0x110C;0x8DC],[0xC4AD;0x1105;0x11AC;0x110C;0x8DC],[0x110A;0x1170;0x11B8;0x1105;0x11AC;0x110C;0x8DC]));
([0x1165;0xB4B9;0x4E9],([0x1165;0x1103;0x1171;0x11BC;0x4E9],[0x1165;0xB4B9;0x4E9],[0x1165;0x1103;0x1171;0x11BC;0x4E9]));
([0x116C;0x302;0xF87;0xA5A;0x10F85;0x342],([0x116C;0x302;0xF87;0xA17;0xA3C;0x10F85;0x342],[0x116C;0x302;0xF87;0xA17;0xA3C;0x10F85;0x342],[0x116C;0x302;0xF87;0xA17;0xA3C;0x10F85;0x342]));
([0x30B;0x306],([0x30B;0x306],[0x30B;0x306],[0x30B;0x306]));
([0x1E009;0x308;0xD4B;0x45;0xF9FD;0x1D171;0x110F],([0x1E009;0x308;0xD47;0xD3E;0x45;0x4EC0;0x1D171;0x110F],[0x1E009;0x308;0xD4B;0x45;0x4EC0;0x1D171;0x110F],[0x1E009;0x308;0xD47;0xD3E;0x45;0x4EC0;0x1D171;0x110F]));
([0x306],([0x306],[0x306],[0x306]));
([0x596;0x1162;0x6E1;0x3C9],([0x596;0x1162;0x6E1;0x3C9],[0x596;0x1162;0x6E1;0x3C9],[0x596;0x1162;0x6E1;0x3C9]));
([0x6E6E;0x11BD],([0x6E6E;0x11BD],[0x6E6E;0x11BD],[0x6E6E;0x11BD]));
([0x654;0x1175;0x314;0x314],([0x654;0x1175;0x314;0x314],[0x654;0x1175;0x314;0x314],[0x654;0x1175;0x314;0x314]));
([0x1EE98;0xFAC3;0x30C;0x2F92D;0x2F883;0xFCD1],([0x1EE98;0x9072;0x30C;0x3EB8;0x382F;0xFCD1],[0x1EE98;0x9072;0x30C;0x3EB8;0x382F;0xFCD1],[0x630;0x9072;0x30C;0x3EB8;0x382F;0x645;0x645]));
([0x6721;0x73B;0x3B7;0xD30E],([0x6721;0x73B;0x3B7;0x1111;0x1161;0x11A9],[0x6721;0x73B;0x3B7;0xD30E],[0x6721;0x73B;0x3B7;0x1111;0x1161;0x11A9]));
([0xB824;0x110C;0xFA08;0x22BF1;0x11BC],([0x1105;0x1167;0x110C;0x884C;0x22BF1;0x11BC],[0xB824;0x110C;0x884C;0x22BF1;0x11BC],[0x1105;0x1167;0x110C;0x884C;0x22BF1;0x11BC]));
([0x2F99B;0x300;0x11BC;0xC3F4;0x651;0x25CD0],([0x83AD;0x300;0x11BC;0x110A;0x116A;0x651;0x25CD0],[0x83AD;0x300;0x11BC;0xC3F4;0x651;0x25CD0],[0x83AD;0x300;0x11BC;0x110A;0x116A;0x651;0x25CD0]));
([0x1F05;0x36F],([0x3B1;0x314;0x301;0x36F],[0x1F05;0x36F],[0x3B1;0x314;0x301;0x36F]));
([0x1136C;0x898;0xBF08;0x1DF0;0x331;0xFB;0xFB13;0x3136],([0x1136C;0x898;0x1108;0x1167;0x331;0x1DF0;0x75;0x302;0xFB13;0x3136],[0x1136C;0x898;0xBF08;0x331;0x1DF0;0xFB;0xFB13;0x3136],[0x1136C;0x898;0x1108;0x1167;0x331;0x1DF0;0x75;0x302;0x574;0x576;0x11AD]));
([0x1F32;0x324;0x104;0xB9F3],([0x3B9;0x324;0x313;0x300;0x41;0x328;0x1106;0x1162;0x11B6],[0x1F32;0x324;0x104;0xB9F3],[0x3B9;0x324;0x313;0x300;0x41;0x328;0x1106;0x1162;0x11B6]));
([0x2223;0xA6F1;0x1E7D;0xA9C0],([0x2223;0xA6F1;0x76;0xA9C0;0x303],[0x2223;0xA6F1;0x1E7D;0xA9C0],[0x2223;0xA6F1;0x76;0xA9C0;0x303]));
([0x1111;0xF9DE;0x1E2ED;0x1FEF],([0x1111;0x540F;0x1E2ED;0x60],[0x1111;0x540F;0x1E2ED;0x60],[0x1111;0x540F;0x1E2ED;0x60]));
([0xFE22;0x326],([0x326;0xFE22],[0x326;0xFE22],[0x326;0xFE22]));
([0x5306;0x7A40;0xD3EC;0x655;0x11A7;0x5AE;0xB5D8;0x303;0x11AC],([0x5306;0x7A40;0x1111;0x1169;0x655;0x11A7;0x5AE;0x1104;0x1167;0x303;0x11AC],[0x5306;0x7A40;0xD3EC;0x655;0x11A7;0x5AE;0xB5D8;0x303;0x11AC],[0x5306;0x7A40;0x1111;0x1169;0x655;0x11A7;0x5AE;0x1104;0x1167;0x303;0x11AC]));
([0x2FA12;0xFE2F],([0x2A105;0xFE2F],[0x2A105;0xFE2F],[0x2A105;0xFE2F]));
([0x1E949;0xE4A],([0xE4A;0x1E949],[0xE4A;0x1E949],[0xE4A;0x1E949]));
([0xB680;0x69;0x1D244;0xAAB2],([0x1104;0x116D;0x69;0x1D244;0xAAB2],[0xB680;0x69;0x1D244;0xAAB2],[0x1104;0x116D;0x69;0x1D244;0xAAB2]));
([0xFA51;0x1101;0x81C;0x346;0x116A],([0x795D;0x1101;0x81C;0x346;0x116A],[0x795D;0x1101;0x81C;0x346;0x116A],[0x795D;0x1101;0x81C;0x346;0x116A]));
([0x10AE5;0xFD6A;0xB64B;0x7EF;0x67],([0x10AE5;0xFD6A;0x1104;0x116B;0x11AA;0x7EF;0x67],[0x10AE5;0xFD6A;0xB64B;0x7EF;0x67],[0x10AE5;0x634;0x645;0x62E;0x1104;0x116B;0x11AA;0x7EF;0x67]));
([0xBBAD;0xFA1A;0x2F31;0x3C9;0x2F9C2;0x1107;0x302;0x70;0x67],([0x1106;0x1172;0x11B0;0x7965;0x2F31;0x3C9;0x45F9;0x1107;0x302;0x70;0x67],[0xBBAD;0x7965;0x2F31;0x3C9;0x45F9;0x1107;0x302;0x70;0x67],[0x1106;0x1172;0x11B0;0x7965;0x5DFE;0x3C9;0x45F9;0x1107;0x302;0x70;0x67]));
([0x1E0;0xCCD;0x1E4EF],([0x41;0xCCD;0x307;0x304;0x1E4EF],[0x1E0;0xCCD;0x1E4EF],[0x41;0xCCD;0x307;0x304;0x1E4EF]));
([0x2DE0],([0x2DE0],[0x2DE0],[0x2DE0]));
([0x1168;0x79;0x1D16E;0x93C;0x2DE1;0x9DD;0x1D188;0x5A4;0x1136A],([0x1168;0x79;0x93C;0x1D16E;0x2DE1;0x9A2;0x9BC;0x5A4;0x1D188;0x1136A],[0x1168;0x79;0x93C;0x1D16E;0x2DE1;0x9A2;0x9BC;0x5A4;0x1D188;0x1136A],[0x1168;0x79;0x93C;0x1D16E;0x2DE1;0x9A2;0x9BC;0x5A4;0x1D188;0x1136A]));
([0x739;0x55;0x11AB;0x112EA;0x74;0x63A0;0xFCDA;0x111C0;0x35F],([0x739;0x55;0x11AB;0x112EA;0x74;0x63A0;0xFCDA;0x111C0;0x35F],[0x739;0x55;0x11AB;0x112EA;0x74;0x63A0;0xFCDA;0x111C0;0x35F],[0x739;0x55;0x11AB;0x112EA;0x74;0x63A0;0x64A;0x62C;0x111C0;0x35F]));
([0x323;0x1D51;0x1DF1;0xA82C],([0x323;0x1D51;0xA82C;0x1DF1],[0x323;0x1D51;0xA82C;0x1DF1],[0x323;0x14B;0xA82C;0x1DF1]));
([0xFA3F;0x34A;0x6E9C;0x5A7;0x45;0xB154;0x11B6;0x137;0x50DA],([0x618E;0x34A;0x6E9C;0x5A7;0x45;0x1102;0x1167;0x11BB;0x11B6;0x6B;0x327;0x50DA],[0x618E;0x34A;0x6E9C;0x5A7;0x45;0xB154;0x11B6;0x137;0x50DA],[0x618E;0x34A;0x6E9C;0x5A7;0x45;0x1102;0x1167;0x11BB;0x11B6;0x6B;0x327;0x50DA]));
([0x64B;0x6691;0x59B],([0x64B;0x6691;0x59B],[0x64B;0x6691;0x59B],[0x64B;0x6691;0x59B]));
([0x2F888;0x1E026],([0x3862;0x1E026],[0x3862;0x1E026],[0x3862;0x1E026]));
([0x7CE8],([0x7CE8],[0x7CE8],[0x7CE8]));
([0x5D0;0x1163;0x739],([0x5D0;0x1163;0x739],[0x5D0;0x1163;0x739],[0x5D0;0x1163;0x739]));
([0xA67B;0x5BC;0x34F],([0x5BC;0xA67B;0x34F],[0x5BC;0xA67B;0x34F],[0x5BC;0xA67B;0x34F]));
([0x2F8A7;0x10F50;0x2F80D;0x1DFE],([0x614C;0x10F50;0x2063A;0x1DFE],[0x614C;0x10F50;0x2063A;0x1DFE],[0x614C;0x10F50;0x2063A;0x1DFE]));
([0x30F;0x70;0x110F],([0x30F;0x70;0x110F],[0x30F;0x70;0x110F],[0x30F;0x70;0x110F]));
([0x1F27;0x6B;0xD1F4;0x1169;0x338],([0x3B7;0x314;0x342;0x6B;0x1110;0x116C;0x1169;0x338],[0x1F27;0x6B;0xD1F4;0x1169;0x338],[0x3B7;0x314;0x342;0x6B;0x1110;0x116C;0x1169;0x338]));
([0x1DE5;0x1714;0x1FAC;0x7BC9;0x206],([0x1714;0x1DE5;0x3A9;0x313;0x301;0x345;0x7BC9;0x45;0x311],[0x1714;0x1DE5;0x1FAC;0x7BC9;0x206],[0x1714;0x1DE5;0x3A9;0x313;0x301;0x345;0x7BC9;0x45;0x311]));
([0x65;0xC6B0;0xF914;0x1037A;0x11BE;0x84F1;0x7BC9;0x1FC8;0x74A],([0x65;0x110B;0x116E;0x6A02;0x1037A;0x11BE;0x84F1;0x7BC9;0x395;0x300;0x74A],[0x65;0xC6B0;0x6A02;0x1037A;0x11BE;0x84F1;0x7BC9;0x1FC8;0x74A],[0x65;0x110B;0x116E;0x6A02;0x1037A;0x11BE;0x84F1;0x7BC9;0x395;0x300;0x74A]));
([0x1DE3;0x96E2;0x349;0x1167;0xFCC6;0x2F58;0x20E1;0x1DD4;0x5717],([0x1DE3;0x96E2;0x349;0x1167;0xFCC6;0x2F58;0x20E1;0x1DD4;0x5717],[0x1DE3;0x96E2;0x349;0x1167;0xFCC6;0x2F58;0x20E1;0x1DD4;0x5717],[0x1DE3;0x96E2;0x349;0x1167;0x643;0x62E;0x723B;0x20E1;0x1DD4;0x5717]));
([0x1163F],([0x1163F],[0x1163F],[0x1163F]));
([0x22E3;0x3059;0x3C4E;0x49;0x2F9AF;0x323;0x1E015;0x78;0x110E],([0x2292;0x338;0x3059;0x3C4E;0x49;0x4561;0x323;0x1E015;0x78;0x110E],[0x22E3;0x3059;0x3C4E;0x49;0x4561;0x323;0x1E015;0x78;0x110E],[0x2292;0x338;0x3059;0x3C4E;0x49;0x4561;0x323;0x1E015;0x78;0x110E]));
([0x77;0x1715;0xB190;0x27CA8;0x8CB;0x27F2F;0x56;0x2F899;0x826],([0x77;0x1715;0x1102;0x1169;0x11BF;0x27CA8;0x8CB;0x27F2F;0x56;0x5F62;0x826],[0x77;0x1715;0xB190;0x27CA8;0x8CB;0x27F2F;0x56;0x5F62;0x826],[0x77;0x1715;0x1102;0x1169;0x11BF;0x27CA8;0x8CB;0x27F2F;0x56;0x5F62;0x826]));
([0x301;0x116A],([0x301;0x116A],[0x301;0x116A],[0x301;0x116A]));
([0x2F97E;0x5E7],([0x265A8;0x5E7],[0x265A8;0x5E7],[0x265A8;0x5E7]));
([0x53;0x11BC;0x5A5;0x2F8BC;0xA8E9;0x69;0x11B4],([0x53;0x11BC;0x5A5;0x6383;0xA8E9;0x69;0x11B4],[0x53;0x11BC;0x5A5;0x6383;0xA8E9;0x69;0x11B4],[0x53;0x11BC;0x5A5;0x6383;0xA8E9;0x69;0x11B4]));
([0x486;0x226;0x1CDD;0x1F4A;0x1A7F],([0x486;0x41;0x1CDD;0x307;0x39F;0x1A7F;0x313;0x300],[0x486;0x226;0x1CDD;0x1F4A;0x1A7F],[0x486;0x41;0x1CDD;0x307;0x39F;0x1A7F;0x313;0x300]));
([0x300;0x73B;0x1FF;0x4C],([0x73B;0x300;0xF8;0x301;0x4C],[0x73B;0x300;0x1FF;0x4C],[0x73B;0x300;0xF8;0x301;0x4C]));
([0x436;0x68;0xF80;0x633D;0x1DFA;0x1D498],([0x436;0x68;0xF80;0x633D;0x1DFA;0x1D498],[0x436;0x68;0xF80;0x633D;0x1DFA;0x1D498],[0x436;0x68;0xF80;0x633D;0x1DFA;0x77]));
([0xFF6A;0x1102],([0xFF6A;0x1102],[0xFF6A;0x1102],[0x30A7;0x1102]));
([0xA66F;0xEB9;0x11C2;0x2F891;0x1DE3;0x5BF;0x226E],([0xEB9;0xA66F;0x11C2;0x22331;0x5BF;0x1DE3;0x3C;0x338],[0xEB9;0xA66F;0x11C2;0x22331;0x5BF;0x1DE3;0x226E],[0xEB9;0xA66F;0x11C2;0x22331;0x5BF;0x1DE3;0x3C;0x338]));
([0x1DCE;0x8070;0xC267;0x865C;0xDCA;0xBE7C;0x2120;0x1B6C],([0x1DCE;0x8070;0x1109;0x1170;0x11BE;0x865C;0xDCA;0x1108;0x1162;0x2120;0x1B6C],[0x1DCE;0x8070;0xC267;0x865C;0xDCA;0xBE7C;0x2120;0x1B6C],[0x1DCE;0x8070;0x1109;0x1170;0x11BE;0x865C;0xDCA;0x1108;0x1162;0x53;0x4D;0x1B6C]));
([0x2DE5;0xAF02;0x1D2;0x1DDD;0x735;0x43;0x736;0x1171],([0x2DE5;0x1101;0x1167;0x11B5;0x6F;0x30C;0x1DDD;0x735;0x43;0x736;0x1171],[0x2DE5;0xAF02;0x1D2;0x1DDD;0x735;0x43;0x736;0x1171],[0x2DE5;0x1101;0x1167;0x11B5;0x6F;0x30C;0x1DDD;0x735;0x43;0x736;0x1171]));
([0x301],([0x301],[0x301],[0x301]));
([0x7FD;0x11131;0x10EAB;0x1ABA;0x24FB8;0x1E023;0x31B;0x1E01B;0x6674],([0x7FD;0x11131;0x1ABA;0x10EAB;0x24FB8;0x31B;0x1E023;0x1E01B;0x6674],[0x7FD;0x11131;0x1ABA;0x10EAB;0x24FB8;0x31B;0x1E023;0x1E01B;0x6674],[0x7FD;0x11131;0x1ABA;0x10EAB;0x24FB8;0x31B;0x1E023;0x1E01B;0x6674]));
([0x2DEA;0x732;0xC816;0x1FE5;0x8CB],([0x2DEA;0x732;0x110C;0x1165;0x11BD;0x3C1;0x314;0x8CB],[0x2DEA;0x732;0xC816;0x1FE5;0x8CB],[0x2DEA;0x732;0x110C;0x1165;0x11BD;0x3C1;0x314;0x8CB]));
([0x1AC5;0xA17;0xACF3;0x27966;0xF92D;0x314],([0x1AC5;0xA17;0x1100;0x1169;0x11BA;0x27966;0x4F86;0x314],[0x1AC5;0xA17;0xACF3;0x27966;0x4F86;0x314],[0x1AC5;0xA17;0x1100;0x1169;0x11BA;0x27966;0x4F86;0x314]));
([0x1E3A;0x116D],([0x4C;0x331;0x116D],[0x1E3A;0x116D],[0x4C;0x331;0x116D]));
([0x1105;0x11A7;0x1107;0x338;0x397],([0x1105;0x11A7;0x1107;0x338;0x397],[0x1105;0x11A7;0x1107;0x338;0x397],[0x1105;0x11A7;0x1107;0x338;0x397]));
([0xC256;0x342;0x20E1;0x9F8E],([0x1109;0x1170;0x11AD;0x342;0x20E1;0x9F8E],[0xC256;0x342;0x20E1;0x9F8E],[0x1109;0x1170;0x11AD;0x342;0x20E1;0x9F8E]));
([0x110D;0x16AF1;0xB741;0xF9F6],([0x110D;0x16AF1;0x1104;0x1173;0x11C0;0x81E8],[0x110D;0x16AF1;0xB741;0x81E8],[0x110D;0x16AF1;0x1104;0x1173;0x11C0;0x81E8]));
([0x79;0x307;0x5C22;0xFA5A;0x594;0x1EA4],([0x79;0x307;0x5C22;0x7F72;0x594;0x41;0x302;0x301],[0x1E8F;0x5C22;0x7F72;0x594;0x1EA4],[0x79;0x307;0x5C22;0x7F72;0x594;0x41;0x302;0x301]));
([0x45;0xC211;0x1B72;0x6BBA;0x657;0x22A9;0x2DEE;0x306],([0x45;0x1109;0x116D;0x11BC;0x1B72;0x6BBA;0x657;0x22A9;0x2DEE;0x306],[0x45;0xC211;0x1B72;0x6BBA;0x657;0x22A9;0x2DEE;0x306],[0x45;0x1109;0x116D;0x11BC;0x1B72;0x6BBA;0x657;0x22A9;0x2DEE;0x306]));
([0xD29D;0xD590;0x226D4;0x3C5],([0x1110;0x1172;0x11A8;0x1112;0x1163;0x226D4;0x3C5],[0xD29D;0xD590;0x226D4;0x3C5],[0x1110;0x1172;0x11A8;0x1112;0x1163;0x226D4;0x3C5]));
([0xF918;0x11B6;0x301;0x1109;0x119;0x1E94A;0x11BB;0x5AE;0x1EA5],([0x843D;0x11B6;0x301;0x1109;0x65;0x1E94A;0x328;0x11BB;0x5AE;0x61;0x302;0x301],[0x843D;0x11B6;0x301;0x1109;0x119;0x1E94A;0x11BB;0x5AE;0x1EA5],[0x843D;0x11B6;0x301;0x1109;0x65;0x1E94A;0x328;0x11BB;0x5AE;0x61;0x302;0x301]));
([0x3206;0xA69F;0x1AB0],([0x3206;0xA69F;0x1AB0],[0x3206;0xA69F;0x1AB0],[0x28;0x1109;0x29;0xA69F;0x1AB0]));
([0x23F5E;0x11046;0x70;0x1E02A;0xF39;0x2F883;0x1D186;0x83E7;0x24814],([0x23F5E;0x11046;0x70;0xF39;0x1E02A;0x382F;0x1D186;0x83E7;0x24814],[0x23F5E;0x11046;0x70;0xF39;0x1E02A;0x382F;0x1D186;0x83E7;0x24814],[0x23F5E;0x11046;0x70;0xF39;0x1E02A;0x382F;0x1D186;0x83E7;0x24814]));
([0x300;0x1D9B;0xC67E;0x2DEE],([0x300;0x1D9B;0x110B;0x116C;0x11AD;0x2DEE],[0x300;0x1D9B;0xC67E;0x2DEE],[0x300;0x252;0x110B;0x116C;0x11AD;0x2DEE]));
([0x8F3],([0x8F3],[0x8F3],[0x8F3]));
([0x744;0x651;0x20EC;0x1FB0;0x1E136],([0x651;0x744;0x20EC;0x3B1;0x306;0x1E136],[0x651;0x744;0x20EC;0x1FB0;0x1E136],[0x651;0x744;0x20EC;0x3B1;0x306;0x1E136]));
([0x11371;0x1101],([0x11371;0x1101],[0x11371;0x1101],[0x11371;0x1101]));
([0x10D;0x2F808;0x2F943],([0x63;0x30C;0x507A;0x25119],[0x10D;0x507A;0x25119],[0x63;0x30C;0x507A;0x25119]));
([0xFA39;0x1D1AB;0xC2DC],([0x5840;0x1D1AB;0x1109;0x1175],[0x5840;0x1D1AB;0xC2DC],[0x5840;0x1D1AB;0x1109;0x1175]));
([0x70;0x5A1;0x8FD;0x345;0x1D17B;0x637B;0x2F9FE;0x10A3F],([0x70;0x1D17B;0x5A1;0x8FD;0x345;0x637B;0x980B;0x10A3F],[0x70;0x1D17B;0x5A1;0x8FD;0x345;0x637B;0x980B;0x10A3F],[0x70;0x1D17B;0x5A1;0x8FD;0x345;0x637B;0x980B;0x10A3F]));
([0x11B8;0x53;0xFE21;0x916A;0x3099;0x4F;0x4E],([0x11B8;0x53;0xFE21;0x916A;0x3099;0x4F;0x4E],[0x11B8;0x53;0xFE21;0x916A;0x3099;0x4F;0x4E],[0x11B8;0x53;0xFE21;0x916A;0x3099;0x4F;0x4E]));
([0x307;0xC7C8],([0x307;0x110C;0x1163],[0x307;0xC7C8],[0x307;0x110C;0x1163]));
([0x53;0x30A;0xAE8B;0x1D7F3;0x309],([0x53;0x30A;0x1101;0x1163;0x11AE;0x1D7F3;0x309],[0x53;0x30A;0xAE8B;0x1D7F3;0x309],[0x53;0x30A;0x1101;0x1163;0x11AE;0x37;0x309]));
([0xD638;0x11AF],([0x1112;0x1169;0x11AF],[0xD640],[0x1112;0x1169;0x11AF]));
([0xBDD4;0x345;0x1E947;0x1110;0x1E3A;0x115BF],([0x1107;0x1171;0x1E947;0x345;0x1110;0x4C;0x115BF;0x331],[0xBDD4;0x1E947;0x345;0x1110;0x1E3A;0x115BF],[0x1107;0x1171;0x1E947;0x345;0x1110;0x4C;0x115BF;0x331]));
([0x69;0x11BD;0xF9C2;0x11BA;0x8964;0x51;0x79;0x2F822],([0x69;0x11BD;0x84FC;0x11BA;0x8964;0x51;0x79;0x5272],[0x69;0x11BD;0x84FC;0x11BA;0x8964;0x51;0x79;0x5272],[0x69;0x11BD;0x84FC;0x11BA;0x8964;0x51;0x79;0x5272]));
([0x2F972;0xC4D;0x1E88],([0x26228;0xC4D;0x57;0x323],[0x26228;0xC4D;0x1E88],[0x26228;0xC4D;0x57;0x323]));
([0x201;0x1AC2;0x6ADB;0x210;0x1CE3],([0x61;0x30F;0x1AC2;0x6ADB;0x52;0x1CE3;0x30F],[0x201;0x1AC2;0x6ADB;0x210;0x1CE3],[0x61;0x30F;0x1AC2;0x6ADB;0x52;0x1CE3;0x30F]));
([0x916A;0x300;0x4F],([0x916A;0x300;0x4F],[0x916A;0x300;0x4F],[0x916A;0x300;0x4F]));
([0x1E31;0x41;0xAAB2;0x313],([0x6B;0x301;0x41;0xAAB2;0x313],[0x1E31;0x41;0xAAB2;0x313],[0x6B;0x301;0x41;0xAAB2;0x313]));
([0x1F3F;0x112E9;0x1BAA],([0x399;0x112E9;0x1BAA;0x314;0x342],[0x1F3F;0x112E9;0x1BAA],[0x399;0x112E9;0x1BAA;0x314;0x342]));
([0x32D;0x2F8AB;0x111CA;0xCD5;0x77],([0x32D;0x618E;0x111CA;0xCD5;0x77],[0x32D;0x618E;0x111CA;0xCD5;0x77],[0x32D;0x618E;0x111CA;0xCD5;0x77]));
([0xDCF;0x1D6B9;0x81E;0xF940;0x1DFD;0x3205;0x4B],([0xDCF;0x1D6B9;0x81E;0x9E7F;0x1DFD;0x3205;0x4B],[0xDCF;0x1D6B9;0x81E;0x9E7F;0x1DFD;0x3205;0x4B],[0xDCF;0x398;0x81E;0x9E7F;0x1DFD;0x28;0x1107;0x29;0x4B]));
([0xF75;0x11A8;0x91D1;0x327;0x1AC9;0x736;0x11133;0x301;0x2DF9],([0xF71;0xF74;0x11A8;0x91D1;0x11133;0x327;0x1AC9;0x736;0x301;0x2DF9],[0xF71;0xF74;0x11A8;0x91D1;0x11133;0x327;0x1AC9;0x736;0x301;0x2DF9],[0xF71;0xF74;0x11A8;0x91D1;0x11133;0x327;0x1AC9;0x736;0x301;0x2DF9]));
([0xFA8E;0x61],([0x641C;0x61],[0x641C;0x61],[0x641C;0x61]));
([0x6D;0x41;0x62D4;0x3B7;0xC8C3],([0x6D;0x41;0x62D4;0x3B7;0x110C;0x116B;0x11C2],[0x6D;0x41;0x62D4;0x3B7;0xC8C3],[0x6D;0x41;0x62D4;0x3B7;0x110C;0x116B;0x11C2]));
([0x68;0xA1C;0x1D1B9;0x318;0x1E023],([0x68;0xA1C;0x1D1B9;0x318;0x1E023],[0x68;0xA1C;0x1D1B9;0x318;0x1E023],[0x68;0xA1C;0x1D1B9;0x318;0x1E023]));
([0xC9F8;0x739;0x1B12],([0x110D;0x1162;0x739;0x1B11;0x1B35],[0xC9F8;0x739;0x1B12],[0x110D;0x1162;0x739;0x1B11;0x1B35]));
([0x2F975;0xD37C],([0x262D9;0x1111;0x1165],[0x262D9;0xD37C],[0x262D9;0x1111;0x1165]));
([0x1F91;0x2F8E6;0x1D4F7;0x20E6;0x66],([0x3B7;0x314;0x345;0x6914;0x1D4F7;0x20E6;0x66],[0x1F91;0x6914;0x1D4F7;0x20E6;0x66],[0x3B7;0x314;0x345;0x6914;0x6E;0x20E6;0x66]));
([0x1112;0xB38C;0x1F51],([0x1112;0x1103;0x1167;0x3C5;0x314],[0x1112;0xB38C;0x1F51],[0x1112;0x1103;0x1167;0x3C5;0x314]));
([0x3280;0xF7D;0x5A0;0x65;0x1E14;0x898],([0x3280;0xF7D;0x5A0;0x65;0x45;0x304;0x300;0x898],[0x3280;0xF7D;0x5A0;0x65;0x1E14;0x898],[0x4E00;0xF7D;0x5A0;0x65;0x45;0x304;0x300;0x898]));
([0xF9CB;0x11C2],([0x6E9C;0x11C2],[0x6E9C;0x11C2],[0x6E9C;0x11C2]));
([0x10F4E;0x45],([0x10F4E;0x45],[0x10F4E;0x45],[0x10F4E;0x45]));
([0xFE70;0x1FFA;0x6881;0x116F;0x308;0x1A17;0x1E01E],([0xFE70;0x3A9;0x300;0x6881;0x116F;0x308;0x1A17;0x1E01E],[0xFE70;0x1FFA;0x6881;0x116F;0x308;0x1A17;0x1E01E],[0x20;0x64B;0x3A9;0x300;0x6881;0x116F;0x308;0x1A17;0x1E01E]));
([0xF9F1],([0x96A3],[0x96A3],[0x96A3]));
([0x1E94A],([0x1E94A],[0x1E94A],[0x1E94A]));
([0x11B2;0x2F9F5;0x5BD],([0x11B2;0x9723;0x5BD],[0x11B2;0x9723;0x5BD],[0x11B2;0x9723;0x5BD]));
([0x2F84A;0xCAA2;0x327;0x1CDC],([0x55C2;0x110D;0x1168;0x11A9;0x327;0x1CDC],[0x55C2;0xCAA2;0x327;0x1CDC],[0x55C2;0x110D;0x1168;0x11A9;0x327;0x1CDC]));
([0x1105;0x8FD;0xB5D8;0x8103;0x2F846;0x5B6;0x61;0x1CDF],([0x1105;0x8FD;0x1104;0x1167;0x8103;0x5584;0x5B6;0x61;0x1CDF],[0x1105;0x8FD;0xB5D8;0x8103;0x5584;0x5B6;0x61;0x1CDF],[0x1105;0x8FD;0x1104;0x1167;0x8103;0x5584;0x5B6;0x61;0x1CDF]));
([0x5C1;0x11046;0x3A6C;0x1AC0;0x1EF3;0x1D160;0x18A9;0xD504;0x2F8DC],([0x11046;0x5C1;0x3A6C;0x1AC0;0x79;0x300;0x1D158;0x1D165;0x1D16E;0x18A9;0x1111;0x1173;0x6753],[0x11046;0x5C1;0x3A6C;0x1AC0;0x1EF3;0x1D158;0x1D165;0x1D16E;0x18A9;0xD504;0x6753],[0x11046;0x5C1;0x3A6C;0x1AC0;0x79;0x300;0x1D158;0x1D165;0x1D16E;0x18A9;0x1111;0x1173;0x6753]));
([0x3178;0x1F8A;0x308;0x2FA02],([0x3178;0x391;0x313;0x300;0x308;0x345;0x98E2],[0x3178;0x1F8A;0x308;0x98E2],[0x112B;0x391;0x313;0x300;0x308;0x345;0x98E2]));
([0x1DFC;0x3050;0x1E005;0x1D158;0x8B39],([0x1DFC;0x304F;0x3099;0x1E005;0x1D158;0x8B39],[0x1DFC;0x3050;0x1E005;0x1D158;0x8B39],[0x1DFC;0x304F;0x3099;0x1E005;0x1D158;0x8B39]));
([0xFA30;0x1110;0x1AB5;0x1183A;0x273CA;0x1DEC],([0x4FAE;0x1110;0x1183A;0x1AB5;0x273CA;0x1DEC],[0x4FAE;0x1110;0x1183A;0x1AB5;0x273CA;0x1DEC],[0x4FAE;0x1110;0x1183A;0x1AB5;0x273CA;0x1DEC]));
([0xB8CB;0x4D;0x11AE],([0x1105;0x116C;0x11C2;0x4D;0x11AE],[0xB8CB;0x4D;0x11AE],[0x1105;0x116C;0x11C2;0x4D;0x11AE]));
([0x1A78;0x308;0x6E;0x10A39;0xC186;0x391],([0x1A78;0x308;0x6E;0x10A39;0x1109;0x1168;0x11BD;0x391],[0x1A78;0x308;0x6E;0x10A39;0xC186;0x391],[0x1A78;0x308;0x6E;0x10A39;0x1109;0x1168;0x11BD;0x391]));
([0xF974;0x3099;0x4B;0x49;0x300;0xF998;0x11AC],([0x82E5;0x3099;0x4B;0x49;0x300;0x8F26;0x11AC],[0x82E5;0x3099;0x4B;0xCC;0x8F26;0x11AC],[0x82E5;0x3099;0x4B;0x49;0x300;0x8F26;0x11AC]));
([0x327;0x1104;0x32E;0xFAA5],([0x327;0x1104;0x32E;0x761F],[0x327;0x1104;0x32E;0x761F],[0x327;0x1104;0x32E;0x761F]));
([0x7EB;0xFAB4;0x75;0x4B;0x72;0x3B7;0xEBA;0x1DE6;0x1734],([0x7EB;0x83EF;0x75;0x4B;0x72;0x3B7;0xEBA;0x1734;0x1DE6],[0x7EB;0x83EF;0x75;0x4B;0x72;0x3B7;0xEBA;0x1734;0x1DE6],[0x7EB;0x83EF;0x75;0x4B;0x72;0x3B7;0xEBA;0x1734;0x1DE6]));
([0x4E32;0x1E2EF;0x10F4C],([0x4E32;0x1E2EF;0x10F4C],[0x4E32;0x1E2EF;0x10F4C],[0x4E32;0x1E2EF;0x10F4C]));
([0x1F3F;0x11A47;0x6F;0x1F95],([0x399;0x11A47;0x314;0x342;0x6F;0x3B7;0x314;0x301;0x345],[0x1F3F;0x11A47;0x6F;0x1F95],[0x399;0x11A47;0x314;0x342;0x6F;0x3B7;0x314;0x301;0x345]));
([0xACF3;0xFDC3;0xAF80],([0x1100;0x1169;0x11BA;0xFDC3;0x1101;0x116C],[0xACF3;0xFDC3;0xAF80],[0x1100;0x1169;0x11BA;0x643;0x645;0x645;0x1101;0x116C]));
([0x9CD;0xFE27;0x11BD],([0x9CD;0xFE27;0x11BD],[0x9CD;0xFE27;0x11BD],[0x9CD;0xFE27;0x11BD]));
([0xB63E;0x11A9;0x6B04;0x59F;0x72;0x301],([0x1104;0x116A;0x11B9;0x11A9;0x6B04;0x59F;0x72;0x301],[0xB63E;0x11A9;0x6B04;0x59F;0x155],[0x1104;0x116A;0x11B9;0x11A9;0x6B04;0x59F;0x72;0x301]));
([0xFA76;0x624;0x2F26;0x11C1;0xEC8],([0x52C7;0x648;0x654;0x2F26;0x11C1;0xEC8],[0x52C7;0x624;0x2F26;0x11C1;0xEC8],[0x52C7;0x648;0x654;0x5B50;0x11C1;0xEC8]));
([0x3BF;0x1E4EC;0x301;0x4F;0x345;0x68],([0x3BF;0x301;0x1E4EC;0x4F;0x345;0x68],[0x3CC;0x1E4EC;0x4F;0x345;0x68],[0x3BF;0x301;0x1E4EC;0x4F;0x345;0x68]));
([0x486;0x6D;0x300;0x345;0x300;0x5A3;0x96E3],([0x486;0x6D;0x5A3;0x300;0x300;0x345;0x96E3],[0x486;0x6D;0x5A3;0x300;0x300;0x345;0x96E3],[0x486;0x6D;0x5A3;0x300;0x300;0x345;0x96E3]));
([0x13C;0x116F;0x3C5;0x1E023;0xA9B3;0x7A],([0x6C;0x327;0x116F;0x3C5;0xA9B3;0x1E023;0x7A],[0x13C;0x116F;0x3C5;0xA9B3;0x1E023;0x7A],[0x6C;0x327;0x116F;0x3C5;0xA9B3;0x1E023;0x7A]));
([0x1CE7;0xCD4D;0x6B;0x317;0x44;0x305B;0xB140;0x591],([0x1CE7;0x110E;0x116B;0x11B4;0x6B;0x317;0x44;0x305B;0x1102;0x1167;0x591],[0x1CE7;0xCD4D;0x6B;0x317;0x44;0x305B;0xB140;0x591],[0x1CE7;0x110E;0x116B;0x11B4;0x6B;0x317;0x44;0x305B;0x1102;0x1167;0x591]));
([0x8D6;0xA67D;0x307;0x1FFD;0x2F8D1;0x61;0x302;0x2F985;0x1037],([0x8D6;0xA67D;0x307;0xB4;0x3AE4;0x61;0x302;0x813E;0x1037],[0x8D6;0xA67D;0x307;0xB4;0x3AE4;0xE2;0x813E;0x1037],[0x8D6;0xA67D;0x307;0x20;0x301;0x3AE4;0x61;0x302;0x813E;0x1037]));
([0x1E946;0x1D4A;0x71;0x1ABF;0x7BC9;0x21DE4;0x116E],([0x1E946;0x1D4A;0x71;0x1ABF;0x7BC9;0x21DE4;0x116E],[0x1E946;0x1D4A;0x71;0x1ABF;0x7BC9;0x21DE4;0x116E],[0x1E946;0x259;0x71;0x1ABF;0x7BC9;0x21DE4;0x116E]));
([0x11A8;0x9C57;0x2DFB;0x301;0x338;0x79],([0x11A8;0x9C57;0x338;0x2DFB;0x301;0x79],[0x11A8;0x9C57;0x338;0x2DFB;0x301;0x79],[0x11A8;0x9C57;0x338;0x2DFB;0x301;0x79]));
([0x4F8;0x103A;0x307],([0x42B;0x103A;0x308;0x307],[0x4F8;0x103A;0x307],[0x42B;0x103A;0x308;0x307]));
([0x8F62;0x328;0x55;0xFA6B],([0x8F62;0x328;0x55;0x6075],[0x8F62;0x328;0x55;0x6075],[0x8F62;0x328;0x55;0x6075]));
([0x338;0x11C1;0xBD64;0x10A3F;0x1110;0xFC4E],([0x338;0x11C1;0x1107;0x116D;0x10A3F;0x1110;0xFC4E],[0x338;0x11C1;0xBD64;0x10A3F;0x1110;0xFC4E],[0x338;0x11C1;0x1107;0x116D;0x10A3F;0x1110;0x646;0x645]));
([0x2139],([0x2139],[0x2139],[0x69]));
([0x1F78;0xC004],([0x3BF;0x300;0x1108;0x1170],[0x1F78;0xC004],[0x3BF;0x300;0x1108;0x1170]));
([0x11B6;0x1100;0x654;0xD3B;0x1111],([0x11B6;0x1100;0xD3B;0x654;0x1111],[0x11B6;0x1100;0xD3B;0x654;0x1111],[0x11B6;0x1100;0xD3B;0x654;0x1111]));
([0x300;0x11A8;0x306;0x103A;0x95F;0xC2D2;0x300;0x11BF],([0x300;0x11A8;0x103A;0x306;0x92F;0x93C;0x1109;0x1174;0x11B9;0x300;0x11BF],[0x300;0x11A8;0x103A;0x306;0x92F;0x93C;0xC2D2;0x300;0x11BF],[0x300;0x11A8;0x103A;0x306;0x92F;0x93C;0x1109;0x1174;0x11B9;0x300;0x11BF]));
([0xF84;0x1F73;0xB530;0x1CE2;0x954;0x2281;0x11100;0x338],([0xF84;0x3B5;0x301;0x1104;0x1161;0x1CE2;0x954;0x227B;0x338;0x338;0x11100],[0xF84;0x3AD;0xB530;0x1CE2;0x954;0x2281;0x338;0x11100],[0xF84;0x3B5;0x301;0x1104;0x1161;0x1CE2;0x954;0x227B;0x338;0x338;0x11100]));
([0x30D5;0xFA3E;0x3C9;0xFF72;0x651;0x656],([0x30D5;0x6168;0x3C9;0xFF72;0x651;0x656],[0x30D5;0x6168;0x3C9;0xFF72;0x651;0x656],[0x30D5;0x6168;0x3C9;0x30A4;0x651;0x656]));
([0x323;0x65C5],([0x323;0x65C5],[0x323;0x65C5],[0x323;0x65C5]));
([0x11B8;0x8D1;0x6C;0x39F;0x415;0xC8E0;0x308;0x1106;0xD542],([0x11B8;0x8D1;0x6C;0x39F;0x415;0x110C;0x116D;0x308;0x1106;0x1111;0x1175;0x11AD],[0x11B8;0x8D1;0x6C;0x39F;0x415;0xC8E0;0x308;0x1106;0xD542],[0x11B8;0x8D1;0x6C;0x39F;0x415;0x110C;0x116D;0x308;0x1106;0x1111;0x1175;0x11AD]));
([0x1172;0x52F5;0x5AB5;0x313;0xA8E5],([0x1172;0x52F5;0x5AB5;0x313;0xA8E5],[0x1172;0x52F5;0x5AB5;0x313;0xA8E5],[0x1172;0x52F5;0x5AB5;0x313;0xA8E5]));
([0x1B42;0xFB34;0xD734;0x11B8;0x326],([0x1B42;0x5D4;0x5BC;0x1112;0x1172;0x11B8;0x326],[0x1B42;0x5D4;0x5BC;0xD745;0x326],[0x1B42;0x5D4;0x5BC;0x1112;0x1172;0x11B8;0x326]));
([0xEC9;0x16F;0x39F;0x2F811;0x7EB],([0xEC9;0x75;0x30A;0x39F;0x5177;0x7EB],[0xEC9;0x16F;0x39F;0x5177;0x7EB],[0xEC9;0x75;0x30A;0x39F;0x5177;0x7EB]));
([0x1175;0x11B9],([0x1175;0x11B9],[0x1175;0x11B9],[0x1175;0x11B9]));
([0x326;0x596;0xC24C],([0x326;0x596;0x1109;0x116F;0x11BF],[0x326;0x596;0xC24C],[0x326;0x596;0x1109;0x116F;0x11BF]));
([0x349;0x110A;0xCD5;0x4DE;0xFA12;0x306;0xDDE;0x302A;0x2F98A],([0x349;0x110A;0xCD5;0x417;0x308;0x6674;0x306;0xDD9;0xDDF;0x302A;0x2339C],[0x349;0x110A;0xCD5;0x4DE;0x6674;0x306;0xDDE;0x302A;0x2339C],[0x349;0x110A;0xCD5;0x417;0x308;0x6674;0x306;0xDD9;0xDDF;0x302A;0x2339C]));
([0x20EB;0x1D47D;0xC1FC;0x2F9DC],([0x20EB;0x1D47D;0x1109;0x116D;0x8DF0],[0x20EB;0x1D47D;0xC1FC;0x8DF0],[0x20EB;0x56;0x1109;0x116D;0x8DF0]));
([0x1E99;0xB459;0x1170],([0x79;0x30A;0x1103;0x116E;0x11B0;0x1170],[0x1E99;0xB459;0x1170],[0x79;0x30A;0x1103;0x116E;0x11B0;0x1170]));
([0x323],([0x323],[0x323],[0x323]));
([0xCA;0x68;0x108D;0x4FAE;0xAFA6],([0x45;0x302;0x68;0x108D;0x4FAE;0x1101;0x116D;0x11B1],[0xCA;0x68;0x108D;0x4FAE;0xAFA6],[0x45;0x302;0x68;0x108D;0x4FAE;0x1101;0x116D;0x11B1]));
([0x43D9;0x11046;0xFA3B;0x2FA13],([0x43D9;0x11046;0x5C64;0x2A20E],[0x43D9;0x11046;0x5C64;0x2A20E],[0x43D9;0x11046;0x5C64;0x2A20E]));
([0x30F],([0x30F],[0x30F],[0x30F]));
([0x1E01D;0x2DE9;0x1D17C;0x314;0x1E2A;0x309A;0x6E;0x3099],([0x1D17C;0x1E01D;0x2DE9;0x314;0x48;0x309A;0x32E;0x6E;0x3099],[0x1D17C;0x1E01D;0x2DE9;0x314;0x1E2A;0x309A;0x6E;0x3099],[0x1D17C;0x1E01D;0x2DE9;0x314;0x48;0x309A;0x32E;0x6E;0x3099]));
([0x327;0x1FF2;0x3099;0x1CD6;0x8D7;0x5A7;0xF94E;0x20E1],([0x327;0x3C9;0x3099;0x1CD6;0x5A7;0x300;0x8D7;0x345;0x6F0F;0x20E1],[0x327;0x1FF2;0x3099;0x1CD6;0x5A7;0x8D7;0x6F0F;0x20E1],[0x327;0x3C9;0x3099;0x1CD6;0x5A7;0x300;0x8D7;0x345;0x6F0F;0x20E1]));
([0x3B1;0x20EC;0xBA20],([0x3B1;0x20EC;0x1106;0x1164;0x11AB],[0x3B1;0x20EC;0xBA20],[0x3B1;0x20EC;0x1106;0x1164;0x11AB]));
([0x9B6F;0xFF45;0x2284A;0x11BA;0xC2C0],([0x9B6F;0xFF45;0x2284A;0x11BA;0x1109;0x1174],[0x9B6F;0xFF45;0x2284A;0x11BA;0xC2C0],[0x9B6F;0x65;0x2284A;0x11BA;0x1109;0x1174]));
([0x7FD;0x1101;0x52;0x2F8F7;0x11943],([0x7FD;0x1101;0x52;0x23A8D;0x11943],[0x7FD;0x1101;0x52;0x23A8D;0x11943],[0x7FD;0x1101;0x52;0x23A8D;0x11943]));
([0xD59A;0x1ACB;0x4E41;0x2F9D2;0x1DC0;0x1171;0xB5D8],([0x1112;0x1163;0x11B1;0x1ACB;0x4E41;0x8C55;0x1DC0;0x1171;0x1104;0x1167],[0xD59A;0x1ACB;0x4E41;0x8C55;0x1DC0;0x1171;0xB5D8],[0x1112;0x1163;0x11B1;0x1ACB;0x4E41;0x8C55;0x1DC0;0x1171;0x1104;0x1167]));
([0x1ACC;0x2DEF;0x315;0x16AF1;0x1CF;0x2F943;0x9A2;0x1D42A],([0x16AF1;0x1ACC;0x2DEF;0x315;0x49;0x30C;0x25119;0x9A2;0x1D42A],[0x16AF1;0x1ACC;0x2DEF;0x315;0x1CF;0x25119;0x9A2;0x1D42A],[0x16AF1;0x1ACC;0x2DEF;0x315;0x49;0x30C;0x25119;0x9A2;0x71]));
([0x1D169;0x8AD2;0x5B2;0x301;0x323;0x416;0x6DCB],([0x1D169;0x8AD2;0x5B2;0x323;0x301;0x416;0x6DCB],[0x1D169;0x8AD2;0x5B2;0x323;0x301;0x416;0x6DCB],[0x1D169;0x8AD2;0x5B2;0x323;0x301;0x416;0x6DCB]));
([0x42],([0x42],[0x42],[0x42]));
([0x313;0x6D;0xD2DA;0x65;0xFA25;0x32C;0x110C;0x1D4DB],([0x313;0x6D;0x1110;0x1174;0x11AD;0x65;0x9038;0x32C;0x110C;0x1D4DB],[0x313;0x6D;0xD2DA;0x65;0x9038;0x32C;0x110C;0x1D4DB],[0x313;0x6D;0x1110;0x1174;0x11AD;0x65;0x9038;0x32C;0x110C;0x4C]));
([0x612;0xD264;0x7669;0x1D6DA],([0x612;0x1110;0x1170;0x7669;0x1D6DA],[0x612;0xD264;0x7669;0x1D6DA],[0x612;0x1110;0x1170;0x7669;0x3C9]));
([0x1DF7;0x301;0x1F82;0xB4DF;0x30D2;0x2CEF],([0x1DF7;0x301;0x3B1;0x313;0x300;0x345;0x1103;0x1173;0x11AA;0x30D2;0x2CEF],[0x1DF7;0x301;0x1F82;0xB4DF;0x30D2;0x2CEF],[0x1DF7;0x301;0x3B1;0x313;0x300;0x345;0x1103;0x1173;0x11AA;0x30D2;0x2CEF]));
([0xFB39;0x8F4],([0x5D9;0x5BC;0x8F4],[0x5D9;0x5BC;0x8F4],[0x5D9;0x5BC;0x8F4]));
([0xA4D;0x1E4EC;0x1102;0x83CC;0x2F9F0;0x898],([0xA4D;0x1E4EC;0x1102;0x83CC;0x95B7;0x898],[0xA4D;0x1E4EC;0x1102;0x83CC;0x95B7;0x898],[0xA4D;0x1E4EC;0x1102;0x83CC;0x95B7;0x898]));
([0x8FA;0xF56;0x1BAA;0x69;0x1DCD;0xC774;0x1BAB;0x101FD],([0x8FA;0xF56;0x1BAA;0x69;0x1DCD;0x110B;0x1175;0x1BAB;0x101FD],[0x8FA;0xF56;0x1BAA;0x69;0x1DCD;0xC774;0x1BAB;0x101FD],[0x8FA;0xF56;0x1BAA;0x69;0x1DCD;0x110B;0x1175;0x1BAB;0x101FD]));
([0x345;0x5BD;0x1E8D5;0xF923;0x9F8E;0x342;0xFA8D;0x11A7;0x345],([0x5BD;0x1E8D5;0x345;0x85CD;0x9F8E;0x342;0x63C4;0x11A7;0x345],[0x5BD;0x1E8D5;0x345;0x85CD;0x9F8E;0x342;0x63C4;0x11A7;0x345],[0x5BD;0x1E8D5;0x345;0x85CD;0x9F8E;0x342;0x63C4;0x11A7;0x345]));
([0x2F899;0x1D17B;0x1F32;0x1E03A;0x1110;0x8D5;0x8204;0x319B;0xCFC4],([0x5F62;0x1D17B;0x3B9;0x313;0x300;0x1E03A;0x1110;0x8D5;0x8204;0x319B;0x110F;0x116D],[0x5F62;0x1D17B;0x1F32;0x1E03A;0x1110;0x8D5;0x8204;0x319B;0xCFC4],[0x5F62;0x1D17B;0x3B9;0x313;0x300;0x43B;0x1110;0x8D5;0x8204;0x4E19;0x110F;0x116D]));
([0x1E947;0x2F82F;0xAC70;0x1DB0;0x111CA;0x1EA;0x1E009;0x345],([0x1E947;0x5373;0x1100;0x1165;0x1DB0;0x111CA;0x4F;0x328;0x1E009;0x345],[0x1E947;0x5373;0xAC70;0x1DB0;0x111CA;0x1EA;0x1E009;0x345],[0x1E947;0x5373;0x1100;0x1165;0x274;0x111CA;0x4F;0x328;0x1E009;0x345]));
([0x10A0D;0x1ACE;0x1C5;0x2F96B;0xC5EC;0xFAD5;0x8D3;0x61A;0x1164],([0x10A0D;0x1ACE;0x1C5;0x25F86;0x110B;0x1167;0x25249;0x61A;0x8D3;0x1164],[0x10A0D;0x1ACE;0x1C5;0x25F86;0xC5EC;0x25249;0x61A;0x8D3;0x1164],[0x10A0D;0x1ACE;0x44;0x7A;0x30C;0x25F86;0x110B;0x1167;0x25249;0x61A;0x8D3;0x1164]));
([0x1164;0x73C;0x2F84F],([0x1164;0x73C;0x5674],[0x1164;0x73C;0x5674],[0x1164;0x73C;0x5674]));
([0x45;0x8F4],([0x45;0x8F4],[0x45;0x8F4],[0x45;0x8F4]));
([0x5954;0xA3C;0x116C;0x302;0x11D44;0x1DED;0x119E0],([0x5954;0xA3C;0x116C;0x11D44;0x119E0;0x302;0x1DED],[0x5954;0xA3C;0x116C;0x11D44;0x119E0;0x302;0x1DED],[0x5954;0xA3C;0x116C;0x11D44;0x119E0;0x302;0x1DED]));
([0x73C;0x3133;0xB140;0x11AC;0xBD29;0x4C;0xD13E;0x228],([0x73C;0x3133;0x1102;0x1167;0x11AC;0x1107;0x116A;0x11C0;0x4C;0x1110;0x1165;0x11B5;0x45;0x327],[0x73C;0x3133;0xB145;0xBD29;0x4C;0xD13E;0x228],[0x73C;0x11AA;0x1102;0x1167;0x11AC;0x1107;0x116A;0x11C0;0x4C;0x1110;0x1165;0x11B5;0x45;0x327]));
([0xFD25;0x11368;0x11B0;0x59;0xAF80;0x11BD;0x11B1;0xF988;0x11AE],([0xFD25;0x11368;0x11B0;0x59;0x1101;0x116C;0x11BD;0x11B1;0x9E97;0x11AE],[0xFD25;0x11368;0x11B0;0x59;0xAF96;0x11B1;0x9E97;0x11AE],[0x634;0x62C;0x11368;0x11B0;0x59;0x1101;0x116C;0x11BD;0x11B1;0x9E97;0x11AE]));
([0x23D1E;0x11A7;0x74;0x1D736;0x58],([0x23D1E;0x11A7;0x74;0x1D736;0x58],[0x23D1E;0x11A7;0x74;0x1D736;0x58],[0x23D1E;0x11A7;0x74;0x3B1;0x58]));
([0xF92B;0x742;0x309A;0x26247;0xB4C0;0x2F9E7;0x1E00D;0x707D;0xECB],([0x72FC;0x309A;0x742;0x26247;0x1103;0x1172;0x9238;0x1E00D;0x707D;0xECB],[0x72FC;0x309A;0x742;0x26247;0xB4C0;0x9238;0x1E00D;0x707D;0xECB],[0x72FC;0x309A;0x742;0x26247;0x1103;0x1172;0x9238;0x1E00D;0x707D;0xECB]));
([0xD638;0x6B;0x319;0x6C4E;0x300;0xCB67;0x43;0xB779],([0x1112;0x1169;0x6B;0x319;0x6C4E;0x300;0x110D;0x116F;0x11AA;0x43;0x1104;0x1175;0x11C0],[0xD638;0x6B;0x319;0x6C4E;0x300;0xCB67;0x43;0xB779],[0x1112;0x1169;0x6B;0x319;0x6C4E;0x300;0x110D;0x116F;0x11AA;0x43;0x1104;0x1175;0x11C0]));
([0x3D2;0x1162;0x1F42;0xF99F;0x1CE0;0x10F49;0x53;0xFE28;0x2192],([0x3D2;0x1162;0x3BF;0x313;0x300;0x70C8;0x1CE0;0x10F49;0x53;0xFE28;0x2192],[0x3D2;0x1162;0x1F42;0x70C8;0x1CE0;0x10F49;0x53;0xFE28;0x2192],[0x3A5;0x1162;0x3BF;0x313;0x300;0x70C8;0x1CE0;0x10F49;0x53;0xFE28;0x2192]));
([0x30C;0xC4B8;0xB798],([0x30C;0x110A;0x1171;0x1105;0x1162],[0x30C;0xC4B8;0xB798],[0x30C;0x110A;0x1171;0x1105;0x1162]));
([0x6F;0x2F9E2],([0x6F;0x9094],[0x6F;0x9094],[0x6F;0x9094]));
([0x1D514;0x11B5;0x328;0x318;0x5C6E;0xFB2F;0x11368;0x8CF;0x1CE4],([0x1D514;0x11B5;0x328;0x318;0x5C6E;0x5D0;0x1CE4;0x5B8;0x8CF;0x11368],[0x1D514;0x11B5;0x328;0x318;0x5C6E;0x5D0;0x1CE4;0x5B8;0x8CF;0x11368],[0x51;0x11B5;0x328;0x318;0x5C6E;0x5D0;0x1CE4;0x5B8;0x8CF;0x11368]));
([0xA3C;0x11B8;0xA59;0x63A9],([0xA3C;0x11B8;0xA16;0xA3C;0x63A9],[0xA3C;0x11B8;0xA16;0xA3C;0x63A9],[0xA3C;0x11B8;0xA16;0xA3C;0x63A9]));
([0x1DF8;0x57;0xB2DB;0xF9EA;0x11BC;0xFA26;0x1D182;0x311],([0x1DF8;0x57;0x1102;0x1175;0x11BA;0x96E2;0x11BC;0x90FD;0x1D182;0x311],[0x1DF8;0x57;0xB2DB;0x96E2;0x11BC;0x90FD;0x1D182;0x311],[0x1DF8;0x57;0x1102;0x1175;0x11BA;0x96E2;0x11BC;0x90FD;0x1D182;0x311]));
([0x1161;0xF7A;0x2F88D;0x10F85;0x11B9;0x8F1;0x3A1],([0x1161;0xF7A;0x5EB6;0x10F85;0x11B9;0x8F1;0x3A1],[0x1161;0xF7A;0x5EB6;0x10F85;0x11B9;0x8F1;0x3A1],[0x1161;0xF7A;0x5EB6;0x10F85;0x11B9;0x8F1;0x3A1]));
([0x2F898;0x48;0x11A34;0xED;0x1DEF;0x56],([0x261DA;0x48;0x11A34;0x69;0x301;0x1DEF;0x56],[0x261DA;0x48;0x11A34;0xED;0x1DEF;0x56],[0x261DA;0x48;0x11A34;0x69;0x301;0x1DEF;0x56]));
([0x11B7;0x99FE],([0x11B7;0x99FE],[0x11B7;0x99FE],[0x11B7;0x99FE]));
([0xF9C7;0x31B;0x1171;0x30FD;0x309;0x11A7;0x55;0x301;0x1F23],([0x5289;0x31B;0x1171;0x30FD;0x309;0x11A7;0x55;0x301;0x3B7;0x314;0x300],[0x5289;0x31B;0x1171;0x30FD;0x309;0x11A7;0xDA;0x1F23],[0x5289;0x31B;0x1171;0x30FD;0x309;0x11A7;0x55;0x301;0x3B7;0x314;0x300]));
([0x1A75;0x2DEC],([0x1A75;0x2DEC],[0x1A75;0x2DEC],[0x1A75;0x2DEC]));
([0x303;0x3D1;0x30C;0xCCF6;0xB878;0xB9B3;0x6C67;0x1F12;0x6FEB],([0x303;0x3D1;0x30C;0x110E;0x1168;0x11B1;0x1105;0x116A;0x1105;0x1175;0x11AE;0x6C67;0x3B5;0x313;0x300;0x6FEB],[0x303;0x3D1;0x30C;0xCCF6;0xB878;0xB9B3;0x6C67;0x1F12;0x6FEB],[0x303;0x3B8;0x30C;0x110E;0x1168;0x11B1;0x1105;0x116A;0x1105;0x1175;0x11AE;0x6C67;0x3B5;0x313;0x300;0x6FEB]));
([0x1D168;0x7A;0x114;0xBE7C;0xBF78;0x1CE4;0x2F99D;0xF9D3],([0x1D168;0x7A;0x45;0x306;0x1108;0x1162;0x1108;0x116B;0x1CE4;0x83BD;0x9678],[0x1D168;0x7A;0x114;0xBE7C;0xBF78;0x1CE4;0x83BD;0x9678],[0x1D168;0x7A;0x45;0x306;0x1108;0x1162;0x1108;0x116B;0x1CE4;0x83BD;0x9678]));
([0x2F949;0x313;0x307;0xC75A;0x50;0x303],([0x4039;0x313;0x307;0x110B;0x1174;0x11A9;0x50;0x303],[0x4039;0x313;0x307;0xC75A;0x50;0x303],[0x4039;0x313;0x307;0x110B;0x1174;0x11A9;0x50;0x303]));
([0x24FB8],([0x24FB8],[0x24FB8],[0x24FB8]));
([0x2FA0C;0x52FA;0x1E135;0x78;0x1B35;0x110F;0xB584],([0x9CFD;0x52FA;0x1E135;0x78;0x1B35;0x110F;0x1104;0x1164],[0x9CFD;0x52FA;0x1E135;0x78;0x1B35;0x110F;0xB584],[0x9CFD;0x52FA;0x1E135;0x78;0x1B35;0x110F;0x1104;0x1164]));
([0x61A;0xF925;0x7471],([0x61A;0x62C9;0x7471],[0x61A;0x62C9;0x7471],[0x61A;0x62C9;0x7471]));
([0x57],([0x57],[0x57],[0x57]));
([0x1DD4;0x110D;0x7A;0x4EA;0x37E;0x302],([0x1DD4;0x110D;0x7A;0x4E8;0x308;0x3B;0x302],[0x1DD4;0x110D;0x7A;0x4EA;0x3B;0x302],[0x1DD4;0x110D;0x7A;0x4E8;0x308;0x3B;0x302]));
([0x54;0x8CB;0x306;0xEB9],([0x54;0xEB9;0x8CB;0x306],[0x54;0xEB9;0x8CB;0x306],[0x54;0xEB9;0x8CB;0x306]));
([0xB2A7;0x35F;0x41;0x11AA],([0x1102;0x1173;0x11BE;0x35F;0x41;0x11AA],[0xB2A7;0x35F;0x41;0x11AA],[0x1102;0x1173;0x11BE;0x35F;0x41;0x11AA]));
([0x11BC],([0x11BC],[0x11BC],[0x11BC]));
([0x11BA;0xF96E;0x1FD2;0x67;0xA674],([0x11BA;0x8449;0x3B9;0x308;0x300;0x67;0xA674],[0x11BA;0x8449;0x1FD2;0x67;0xA674],[0x11BA;0x8449;0x3B9;0x308;0x300;0x67;0xA674]));
([0x43;0x1E1E;0x1D158],([0x43;0x46;0x307;0x1D158],[0x43;0x1E1E;0x1D158],[0x43;0x46;0x307;0x1D158]));
([0x11C2;0x345;0xC608;0x1167;0x1ED7;0x1DCA;0x2F98B;0x930],([0x11C2;0x345;0x110B;0x1168;0x1167;0x6F;0x1DCA;0x302;0x303;0x8201;0x930],[0x11C2;0x345;0xC608;0x1167;0x1ED7;0x1DCA;0x8201;0x930],[0x11C2;0x345;0x110B;0x1168;0x1167;0x6F;0x1DCA;0x302;0x303;0x8201;0x930]));
([0x817;0x81B;0x3310;0x1D16E;0x356],([0x817;0x81B;0x3310;0x1D16E;0x356],[0x817;0x81B;0x3310;0x1D16E;0x356],[0x817;0x81B;0x30AD;0x3099;0x30AB;0x3099;0x1D16E;0x356]));
([0x3008],([0x3008],[0x3008],[0x3008]));
([0xC4D4;0x10F83;0x361;0x11B9;0x1BF3;0x1DD2;0x4C;0xBAA8;0x69],([0x110A;0x1172;0x10F83;0x361;0x11B9;0x1BF3;0x1DD2;0x4C;0x1106;0x1169;0x69],[0xC4D4;0x10F83;0x361;0x11B9;0x1BF3;0x1DD2;0x4C;0xBAA8;0x69],[0x110A;0x1172;0x10F83;0x361;0x11B9;0x1BF3;0x1DD2;0x4C;0x1106;0x1169;0x69]));
([0x7A;0xD0A4;0x301;0x336],([0x7A;0x110F;0x1175;0x336;0x301],[0x7A;0xD0A4;0x336;0x301],[0x7A;0x110F;0x1175;0x336;0x301]));
([0x2472;0x1E4EE;0x16FF1;0x2F887;0xF992;0x2F8A6;0x5A62;0x11BA],([0x2472;0x16FF1;0x1E4EE;0x5E69;0x6F23;0x6148;0x5A62;0x11BA],[0x2472;0x16FF1;0x1E4EE;0x5E69;0x6F23;0x6148;0x5A62;0x11BA],[0x31;0x39;0x16FF1;0x1E4EE;0x5E69;0x6F23;0x6148;0x5A62;0x11BA]));
([0x30F;0x1E028;0xD130],([0x30F;0x1E028;0x1110;0x1165],[0x30F;0x1E028;0xD130],[0x30F;0x1E028;0x1110;0x1165]));
([0x11B7],([0x11B7],[0x11B7],[0x11B7]));
([0x71CE;0x1EE02;0x323;0x75],([0x71CE;0x1EE02;0x323;0x75],[0x71CE;0x1EE02;0x323;0x75],[0x71CE;0x62C;0x323;0x75]));
([0x338;0x1DD0;0xCFFC;0xFA6B;0x76;0x336;0x311;0xB5C],([0x338;0x1DD0;0x110F;0x116F;0x6075;0x76;0x336;0x311;0xB21;0xB3C],[0x338;0x1DD0;0xCFFC;0x6075;0x76;0x336;0x311;0xB21;0xB3C],[0x338;0x1DD0;0x110F;0x116F;0x6075;0x76;0x336;0x311;0xB21;0xB3C]));
([0x5906;0x20E7;0x2CEF;0xFFD6;0x1E54;0x8D4;0xC3A0;0x737],([0x5906;0x20E7;0x2CEF;0xFFD6;0x50;0x301;0x8D4;0x110A;0x1167;0x737],[0x5906;0x20E7;0x2CEF;0xFFD6;0x1E54;0x8D4;0xC3A0;0x737],[0x5906;0x20E7;0x2CEF;0x1171;0x50;0x301;0x8D4;0x110A;0x1167;0x737]));
([0xCD08],([0x110E;0x1169],[0xCD08],[0x110E;0x1169]));
([0x591;0x110E;0xAAB0;0xF9BC],([0x591;0x110E;0xAAB0;0x5BEE],[0x591;0x110E;0xAAB0;0x5BEE],[0x591;0x110E;0xAAB0;0x5BEE]));
([0x110C;0x2F9B0;0x1145E],([0x110C;0x26FB1;0x1145E],[0x110C;0x26FB1;0x1145E],[0x110C;0x26FB1;0x1145E]));
([0x627;0x32D;0xCDB0;0x8FB6;0x6160;0x3B7;0xFB41],([0x627;0x32D;0x110E;0x116F;0x8FB6;0x6160;0x3B7;0x5E1;0x5BC],[0x627;0x32D;0xCDB0;0x8FB6;0x6160;0x3B7;0x5E1;0x5BC],[0x627;0x32D;0x110E;0x116F;0x8FB6;0x6160;0x3B7;0x5E1;0x5BC]));
([0x313;0x749;0x6D;0x34E;0x827],([0x313;0x749;0x6D;0x34E;0x827],[0x313;0x749;0x6D;0x34E;0x827],[0x313;0x749;0x6D;0x34E;0x827]));
([0xBFE8;0x1DF3;0x8CD;0x11B4;0x61AF;0x1109;0x314;0x1DF4],([0x1108;0x116F;0x1DF3;0x8CD;0x11B4;0x61AF;0x1109;0x314;0x1DF4],[0xBFE8;0x1DF3;0x8CD;0x11B4;0x61AF;0x1109;0x314;0x1DF4],[0x1108;0x116F;0x1DF3;0x8CD;0x11B4;0x61AF;0x1109;0x314;0x1DF4]));
([0x2F8DD;0xD78B;0x16AF4],([0x233C3;0x1112;0x1175;0x11AA;0x16AF4],[0x233C3;0xD78B;0x16AF4],[0x233C3;0x1112;0x1175;0x11AA;0x16AF4]));
([0x8FA;0x6383;0x930],([0x8FA;0x6383;0x930],[0x8FA;0x6383;0x930],[0x8FA;0x6383;0x930]));
([0x391;0x55;0xFE28;0xA677;0x1E018;0xCEC6;0x345;0x61F2;0x11134],([0x391;0x55;0xFE28;0xA677;0x1E018;0x110F;0x1163;0x11C1;0x345;0x61F2;0x11134],[0x391;0x55;0xFE28;0xA677;0x1E018;0xCEC6;0x345;0x61F2;0x11134],[0x391;0x55;0xFE28;0xA677;0x1E018;0x110F;0x1163;0x11C1;0x345;0x61F2;0x11134]));
([0x2F972;0xBC14;0x1D242;0x1FCE;0x330;0x10378;0x11AF;0xB36F;0x11BB],([0x26228;0x1107;0x1161;0x1D242;0x1FBF;0x330;0x301;0x10378;0x11AF;0x1103;0x1165;0x11C2;0x11BB],[0x26228;0xBC14;0x1D242;0x1FCE;0x330;0x10378;0x11AF;0xB36F;0x11BB],[0x26228;0x1107;0x1161;0x1D242;0x20;0x330;0x313;0x301;0x10378;0x11AF;0x1103;0x1165;0x11C2;0x11BB]));
([0x3A5;0x1F52;0x8C55],([0x3A5;0x3C5;0x313;0x300;0x8C55],[0x3A5;0x1F52;0x8C55],[0x3A5;0x3C5;0x313;0x300;0x8C55]));
([0x749;0xC7CC;0x11127;0x41;0x8E3;0x64],([0x749;0x110C;0x1163;0x11AB;0x11127;0x41;0x8E3;0x64],[0x749;0xC7CC;0x11127;0x41;0x8E3;0x64],[0x749;0x110C;0x1163;0x11AB;0x11127;0x41;0x8E3;0x64]));
([0x1174;0x3099;0xFB2B;0x825;0x30DC;0x1E134;0x22A9;0x3099],([0x1174;0x3099;0x5E9;0x5C2;0x825;0x30DB;0x3099;0x1E134;0x22A9;0x3099],[0x1174;0x3099;0x5E9;0x5C2;0x825;0x30DC;0x1E134;0x22A9;0x3099],[0x1174;0x3099;0x5E9;0x5C2;0x825;0x30DB;0x3099;0x1E134;0x22A9;0x3099]));
([0x11D42;0x6F],([0x11D42;0x6F],[0x11D42;0x6F],[0x11D42;0x6F]));
([0xB70C;0x6DF;0x6383;0x1DD7;0x1109;0x1D1BA;0x3167;0x51F5;0x4D],([0x1104;0x1172;0x6DF;0x6383;0x1DD7;0x1109;0x1D1BA;0x3167;0x51F5;0x4D],[0xB70C;0x6DF;0x6383;0x1DD7;0x1109;0x1D1BA;0x3167;0x51F5;0x4D],[0x1104;0x1172;0x6DF;0x6383;0x1DD7;0x1109;0x1D1BA;0x11C7;0x51F5;0x4D]));
([0xFA9B;0x6F],([0x701E;0x6F],[0x701E;0x6F],[0x701E;0x6F]));
([0x114C2;0x65E3;0xD638],([0x114C2;0x65E3;0x1112;0x1169],[0x114C2;0x65E3;0xD638],[0x114C2;0x65E3;0x1112;0x1169]));
([0x1E01E;0x302E;0x302;0x8ED],([0x8ED;0x302E;0x1E01E;0x302],[0x8ED;0x302E;0x1E01E;0x302],[0x8ED;0x302E;0x1E01E;0x302]));
([0x17B;0x8AED;0x327E;0x1F81;0x30E;0x315;0x1E60;0x1037;0x1E48],([0x5A;0x307;0x8AED;0x327E;0x3B1;0x314;0x30E;0x315;0x345;0x53;0x1037;0x307;0x4E;0x331],[0x17B;0x8AED;0x327E;0x1F81;0x30E;0x315;0x1E60;0x1037;0x1E48],[0x5A;0x307;0x8AED;0x110B;0x116E;0x3B1;0x314;0x30E;0x315;0x345;0x53;0x1037;0x307;0x4E;0x331]));
([0x11B2;0x1E39;0x313;0xA9B3;0x1170],([0x11B2;0x6C;0xA9B3;0x323;0x304;0x313;0x1170],[0x11B2;0x1E39;0xA9B3;0x313;0x1170],[0x11B2;0x6C;0xA9B3;0x323;0x304;0x313;0x1170]));
([0x8E7;0xFE21;0xA8C4],([0xA8C4;0x8E7;0xFE21],[0xA8C4;0x8E7;0xFE21],[0xA8C4;0x8E7;0xFE21]));
([0x2CEF],([0x2CEF],[0x2CEF],[0x2CEF]));
([0xBAF9;0x331;0xC4B4;0x48],([0x1106;0x116B;0x11C0;0x331;0x110A;0x1170;0x11BF;0x48],[0xBAF9;0x331;0xC4B4;0x48],[0x1106;0x116B;0x11C0;0x331;0x110A;0x1170;0x11BF;0x48]));
([0x537F;0x2F9AD;0xB480;0x302;0xC440;0x50;0x327],([0x537F;0x26F2C;0x1103;0x116F;0x11BB;0x302;0x110A;0x116C;0x11BB;0x50;0x327],[0x537F;0x26F2C;0xB480;0x302;0xC440;0x50;0x327],[0x537F;0x26F2C;0x1103;0x116F;0x11BB;0x302;0x110A;0x116C;0x11BB;0x50;0x327]));
([0x2DE6;0x650;0x1939;0x106;0xD3D0;0x1A17;0x2282;0x2F839],([0x650;0x1939;0x2DE6;0x43;0x301;0x1111;0x1168;0x1A17;0x2282;0x53EB],[0x650;0x1939;0x2DE6;0x106;0xD3D0;0x1A17;0x2282;0x53EB],[0x650;0x1939;0x2DE6;0x43;0x301;0x1111;0x1168;0x1A17;0x2282;0x53EB]));
([0x6B;0xFCBE;0x1CD9;0xCB5D;0x30AD;0xB568;0xC051;0x3B1;0x11B5],([0x6B;0xFCBE;0x1CD9;0x110D;0x116E;0x11BC;0x30AD;0x1104;0x1163;0x1108;0x1172;0x11BC;0x3B1;0x11B5],[0x6B;0xFCBE;0x1CD9;0xCB5D;0x30AD;0xB568;0xC051;0x3B1;0x11B5],[0x6B;0x641;0x62C;0x1CD9;0x110D;0x116E;0x11BC;0x30AD;0x1104;0x1163;0x1108;0x1172;0x11BC;0x3B1;0x11B5]));
([0x2F93F;0x55AB;0x22BF1;0x1CE7],([0x4008;0x55AB;0x22BF1;0x1CE7],[0x4008;0x55AB;0x22BF1;0x1CE7],[0x4008;0x55AB;0x22BF1;0x1CE7]));
([0x3B1;0x73F;0x116F;0x323;0x8F0;0x1DBA;0x302C;0x2F990],([0x3B1;0x73F;0x116F;0x8F0;0x323;0x1DBA;0x302C;0x828B],[0x3B1;0x73F;0x116F;0x8F0;0x323;0x1DBA;0x302C;0x828B],[0x3B1;0x73F;0x116F;0x8F0;0x323;0x28C;0x302C;0x828B]));
([0xBFCC;0x30C9;0x1D16D;0x342;0x1DF6;0x51;0x1EDB;0xBC14;0x2300A],([0x1108;0x116E;0x30C8;0x3099;0x1D16D;0x342;0x1DF6;0x51;0x6F;0x31B;0x301;0x1107;0x1161;0x2300A],[0xBFCC;0x30C9;0x1D16D;0x342;0x1DF6;0x51;0x1EDB;0xBC14;0x2300A],[0x1108;0x116E;0x30C8;0x3099;0x1D16D;0x342;0x1DF6;0x51;0x6F;0x31B;0x301;0x1107;0x1161;0x2300A]));
([0x1D49B;0x4B;0x331;0x1E0A;0xB2AC;0x1E2EE;0xA9B3;0x304;0x1FF4],([0x1D49B;0x4B;0x331;0x44;0x307;0x1102;0x1174;0xA9B3;0x1E2EE;0x304;0x3C9;0x301;0x345],[0x1D49B;0x1E34;0x1E0A;0xB2AC;0xA9B3;0x1E2EE;0x304;0x1FF4],[0x7A;0x4B;0x331;0x44;0x307;0x1102;0x1174;0xA9B3;0x1E2EE;0x304;0x3C9;0x301;0x345]));
([0x3B7;0x66;0x1E009;0x1DE1;0xB824;0x358;0xC854],([0x3B7;0x66;0x1E009;0x1DE1;0x1105;0x1167;0x358;0x110C;0x1168],[0x3B7;0x66;0x1E009;0x1DE1;0xB824;0x358;0xC854],[0x3B7;0x66;0x1E009;0x1DE1;0x1105;0x1167;0x358;0x110C;0x1168]));
([0x1165;0x5317;0x1AB2],([0x1165;0x5317;0x1AB2],[0x1165;0x5317;0x1AB2],[0x1165;0x5317;0x1AB2]));
([0x2F82C;0xB7E7;0xD449;0x1E005],([0x5349;0x1105;0x1164;0x11BE;0x1111;0x116C;0x11B0;0x1E005],[0x5349;0xB7E7;0xD449;0x1E005],[0x5349;0x1105;0x1164;0x11BE;0x1111;0x116C;0x11B0;0x1E005]));
([0xFB4B;0x30C;0x7387;0x915],([0x5D5;0x5B9;0x30C;0x7387;0x915],[0x5D5;0x5B9;0x30C;0x7387;0x915],[0x5D5;0x5B9;0x30C;0x7387;0x915]));
([0x1E0C;0x21E;0x1EB6;0xABED;0x1D1B9],([0x44;0x323;0x48;0x30C;0x41;0xABED;0x323;0x306;0x1D1B9],[0x1E0C;0x21E;0x1EB6;0xABED;0x1D1B9],[0x44;0x323;0x48;0x30C;0x41;0xABED;0x323;0x306;0x1D1B9]));
([0xD4A9;0x1E016],([0x1111;0x116F;0x11BC;0x1E016],[0xD4A9;0x1E016],[0x1111;0x116F;0x11BC;0x1E016]));
([0x72;0xD79D;0x2F90B;0xF98D;0xA82C;0x16FF1;0xACD;0x1100],([0x72;0x1112;0x1175;0x11BC;0x6ECB;0x8F62;0x16FF1;0xA82C;0xACD;0x1100],[0x72;0xD79D;0x6ECB;0x8F62;0x16FF1;0xA82C;0xACD;0x1100],[0x72;0x1112;0x1175;0x11BC;0x6ECB;0x8F62;0x16FF1;0xA82C;0xACD;0x1100]));
([0x1D736;0xF71;0x137;0x61;0x391;0x2F8D0;0x304;0xF985],([0x1D736;0xF71;0x6B;0x327;0x61;0x391;0x3B08;0x304;0x792A],[0x1D736;0xF71;0x137;0x61;0x391;0x3B08;0x304;0x792A],[0x3B1;0xF71;0x6B;0x327;0x61;0x391;0x3B08;0x304;0x792A]));
([0x32F7;0xC780;0x327;0x34B;0x6F23;0x53DF],([0x32F7;0x110B;0x1175;0x11B3;0x327;0x34B;0x6F23;0x53DF],[0x32F7;0xC780;0x327;0x34B;0x6F23;0x53DF],[0x30EA;0x110B;0x1175;0x11B3;0x327;0x34B;0x6F23;0x53DF]));
([0x740;0xC11C;0x16FF1],([0x740;0x1109;0x1165;0x16FF1],[0x740;0xC11C;0x16FF1],[0x740;0x1109;0x1165;0x16FF1]));
([0xB1E8;0x443;0xB8A3;0x1E2AE;0x6D;0x16AF4;0x11B6;0xF961;0xA69F],([0x1102;0x116D;0x443;0x1105;0x116B;0x11B6;0x1E2AE;0x6D;0x16AF4;0x11B6;0x7387;0xA69F],[0xB1E8;0x443;0xB8A3;0x1E2AE;0x6D;0x16AF4;0x11B6;0x7387;0xA69F],[0x1102;0x116D;0x443;0x1105;0x116B;0x11B6;0x1E2AE;0x6D;0x16AF4;0x11B6;0x7387;0xA69F]));
([0x1F04;0xA66F;0xF927;0x6B;0x345;0xC448;0x1D4A6;0xFB36;0x313],([0x3B1;0x313;0x301;0xA66F;0x881F;0x6B;0x345;0x110A;0x116D;0x1D4A6;0x5D6;0x5BC;0x313],[0x1F04;0xA66F;0x881F;0x6B;0x345;0xC448;0x1D4A6;0x5D6;0x5BC;0x313],[0x3B1;0x313;0x301;0xA66F;0x881F;0x6B;0x345;0x110A;0x116D;0x4B;0x5D6;0x5BC;0x313]));
([0x391;0xFFA8;0x11A34;0x1D168;0xBCA0;0xD393],([0x391;0xFFA8;0x1D168;0x11A34;0x1107;0x1166;0x1111;0x1165;0x11BE],[0x391;0xFFA8;0x1D168;0x11A34;0xBCA0;0xD393],[0x391;0x1104;0x1D168;0x11A34;0x1107;0x1166;0x1111;0x1165;0x11BE]));
([0x3070;0x313],([0x306F;0x3099;0x313],[0x3070;0x313],[0x306F;0x3099;0x313]));
([0x59D;0x730;0x11A7;0x72;0x59C;0x313],([0x59D;0x730;0x11A7;0x72;0x59C;0x313],[0x59D;0x730;0x11A7;0x72;0x59C;0x313],[0x59D;0x730;0x11A7;0x72;0x59C;0x313]));
([0x300;0x301;0x98FC;0x8E8;0x300;0x5A9;0x516D;0x25CD0;0x307],([0x300;0x301;0x98FC;0x8E8;0x300;0x5A9;0x516D;0x25CD0;0x307],[0x300;0x301;0x98FC;0x8E8;0x300;0x5A9;0x516D;0x25CD0;0x307],[0x300;0x301;0x98FC;0x8E8;0x300;0x5A9;0x516D;0x25CD0;0x307]));
([0x1DCE;0x1DC0;0x65;0x1DF1;0x439;0x54;0x1B35],([0x1DCE;0x1DC0;0x65;0x1DF1;0x438;0x306;0x54;0x1B35],[0x1DCE;0x1DC0;0x65;0x1DF1;0x439;0x54;0x1B35],[0x1DCE;0x1DC0;0x65;0x1DF1;0x438;0x306;0x54;0x1B35]));
([0x56;0x1F26],([0x56;0x3B7;0x313;0x342],[0x56;0x1F26],[0x56;0x3B7;0x313;0x342]));
([0x3236;0x313;0x1170;0x34F;0x10378;0xCA4C;0x345],([0x3236;0x313;0x1170;0x34F;0x10378;0x110D;0x1165;0x345],[0x3236;0x313;0x1170;0x34F;0x10378;0xCA4C;0x345],[0x28;0x8CA1;0x29;0x313;0x1170;0x34F;0x10378;0x110D;0x1165;0x345]));
([0x313;0xFCD0],([0x313;0xFCD0],[0x313;0xFCD0],[0x313;0x645;0x62E]));
([0x301;0x73],([0x301;0x73],[0x301;0x73],[0x301;0x73]));
([0x3A5;0xFF89;0x10EAC;0xCB6C;0x76;0x934;0x302;0x3B9;0x8D9],([0x3A5;0xFF89;0x10EAC;0x110D;0x116F;0x11AF;0x76;0x933;0x93C;0x302;0x3B9;0x8D9],[0x3A5;0xFF89;0x10EAC;0xCB6C;0x76;0x934;0x302;0x3B9;0x8D9],[0x3A5;0x30CE;0x10EAC;0x110D;0x116F;0x11AF;0x76;0x933;0x93C;0x302;0x3B9;0x8D9]));
([0x93C;0x56;0x1104;0x5B5;0x16B32;0x11BB;0x1D58E;0x1AB0],([0x93C;0x56;0x1104;0x5B5;0x16B32;0x11BB;0x1D58E;0x1AB0],[0x93C;0x56;0x1104;0x5B5;0x16B32;0x11BB;0x1D58E;0x1AB0],[0x93C;0x56;0x1104;0x5B5;0x16B32;0x11BB;0x69;0x1AB0]));
([0x1AC3;0x1D170;0x1D626;0x1108;0x193A;0x77;0x6F;0x1D5A5;0x1105],([0x1D170;0x1AC3;0x1D626;0x1108;0x193A;0x77;0x6F;0x1D5A5;0x1105],[0x1D170;0x1AC3;0x1D626;0x1108;0x193A;0x77;0x6F;0x1D5A5;0x1105],[0x1D170;0x1AC3;0x65;0x1108;0x193A;0x77;0x6F;0x46;0x1105]));
([0x1D6BA;0x343;0xF9C2;0x44;0x30C;0x5448;0x34D;0x11B4;0x307],([0x1D6BA;0x313;0x84FC;0x44;0x30C;0x5448;0x34D;0x11B4;0x307],[0x1D6BA;0x313;0x84FC;0x10E;0x5448;0x34D;0x11B4;0x307],[0x3A3;0x313;0x84FC;0x44;0x30C;0x5448;0x34D;0x11B4;0x307]));
([0x309],([0x309],[0x309],[0x309]));
([0x11BE;0x1E94A;0xBB50;0x9E97;0xF95E;0x44;0xB044],([0x11BE;0x1E94A;0x1106;0x116F;0x9E97;0x4E39;0x44;0x1101;0x1173],[0x11BE;0x1E94A;0xBB50;0x9E97;0x4E39;0x44;0xB044],[0x11BE;0x1E94A;0x1106;0x116F;0x9E97;0x4E39;0x44;0x1101;0x1173]));
([0xF986],([0x95AD],[0x95AD],[0x95AD]));
([0x2F8D5;0x5AB5;0x82D;0x308;0x61;0x3C9;0x1E01C;0x110A;0x114BB],([0x669C;0x5AB5;0x82D;0x308;0x61;0x3C9;0x1E01C;0x110A;0x114B9;0x114BA],[0x669C;0x5AB5;0x82D;0x308;0x61;0x3C9;0x1E01C;0x110A;0x114BB],[0x669C;0x5AB5;0x82D;0x308;0x61;0x3C9;0x1E01C;0x110A;0x114B9;0x114BA]));
([0xBE28;0x3B7;0x41;0x1E49;0x1D412;0x49;0x1ACE],([0x1107;0x1174;0x3B7;0x41;0x6E;0x331;0x1D412;0x49;0x1ACE],[0xBE28;0x3B7;0x41;0x1E49;0x1D412;0x49;0x1ACE],[0x1107;0x1174;0x3B7;0x41;0x6E;0x331;0x53;0x49;0x1ACE]));
([0x3D3;0x1CD6],([0x3D2;0x1CD6;0x301],[0x3D3;0x1CD6],[0x3A5;0x1CD6;0x301]));
([0x110C],([0x110C],[0x110C],[0x110C]));
([0x2FA02;0x2F82D;0x5B6;0x345;0x5E8;0x98EF;0x1B6D;0x4F],([0x98E2;0x5351;0x5B6;0x345;0x5E8;0x98EF;0x1B6D;0x4F],[0x98E2;0x5351;0x5B6;0x345;0x5E8;0x98EF;0x1B6D;0x4F],[0x98E2;0x5351;0x5B6;0x345;0x5E8;0x98EF;0x1B6D;0x4F]));
([0x313;0x5E1;0x1170;0x5A3],([0x313;0x5E1;0x1170;0x5A3],[0x313;0x5E1;0x1170;0x5A3],[0x313;0x5E1;0x1170;0x5A3]));
([0x1BF2;0x5510;0x1173;0x3A9;0x1B35;0x4E;0x6F;0x301;0x1DE1],([0x1BF2;0x5510;0x1173;0x3A9;0x1B35;0x4E;0x6F;0x301;0x1DE1],[0x1BF2;0x5510;0x1173;0x3A9;0x1B35;0x4E;0xF3;0x1DE1],[0x1BF2;0x5510;0x1173;0x3A9;0x1B35;0x4E;0x6F;0x301;0x1DE1]));
([0x369;0x47;0x345;0xD5C8;0x323;0x8F9;0x1E25;0x7469],([0x369;0x47;0x345;0x1112;0x1165;0x323;0x8F9;0x68;0x323;0x7469],[0x369;0x47;0x345;0xD5C8;0x323;0x8F9;0x1E25;0x7469],[0x369;0x47;0x345;0x1112;0x1165;0x323;0x8F9;0x68;0x323;0x7469]));
([0x301],([0x301],[0x301],[0x301]));
([0x438;0x1CD2;0x1FB2;0xC5F0],([0x438;0x1CD2;0x3B1;0x300;0x345;0x110B;0x1167;0x11AB],[0x438;0x1CD2;0x1FB2;0xC5F0],[0x438;0x1CD2;0x3B1;0x300;0x345;0x110B;0x1167;0x11AB]));
([0x6F;0x3054;0x1171;0x8E3;0x658;0xD2AD;0x116C;0xD6A8;0xD6A8],([0x6F;0x3053;0x3099;0x1171;0x8E3;0x658;0x1110;0x1172;0x11B8;0x116C;0x1112;0x116D;0x1112;0x116D],[0x6F;0x3054;0x1171;0x8E3;0x658;0xD2AD;0x116C;0xD6A8;0xD6A8],[0x6F;0x3053;0x3099;0x1171;0x8E3;0x658;0x1110;0x1172;0x11B8;0x116C;0x1112;0x116D;0x1112;0x116D]));
([0x75;0x5C4],([0x75;0x5C4],[0x75;0x5C4],[0x75;0x5C4]));
([0x79EB;0x2F8A1;0xB88A;0xC170],([0x79EB;0x393A;0x1105;0x116A;0x11B9;0x1109;0x1168],[0x79EB;0x393A;0xB88A;0xC170],[0x79EB;0x393A;0x1105;0x116A;0x11B9;0x1109;0x1168]));
([0x9AF;0x1172B;0x477;0x308;0x1EF6;0x1A76],([0x9AF;0x1172B;0x475;0x30F;0x308;0x59;0x309;0x1A76],[0x9AF;0x1172B;0x477;0x308;0x1EF6;0x1A76],[0x9AF;0x1172B;0x475;0x30F;0x308;0x59;0x309;0x1A76]));
([0x5BC;0x7210;0x301;0x310],([0x5BC;0x7210;0x301;0x310],[0x5BC;0x7210;0x301;0x310],[0x5BC;0x7210;0x301;0x310]));
([0x11BE;0x301;0x8DD;0x301;0x1DC;0x6CE5;0xBCD],([0x11BE;0x301;0x8DD;0x301;0x75;0x308;0x300;0x6CE5;0xBCD],[0x11BE;0x301;0x8DD;0x301;0x1DC;0x6CE5;0xBCD],[0x11BE;0x301;0x8DD;0x301;0x75;0x308;0x300;0x6CE5;0xBCD]));
([0x314;0x1DEB;0xFE20;0x5D8;0x11B0;0x1E02;0x3099;0x313;0xB6F0],([0x314;0x1DEB;0xFE20;0x5D8;0x11B0;0x42;0x3099;0x307;0x313;0x1104;0x1171],[0x314;0x1DEB;0xFE20;0x5D8;0x11B0;0x1E02;0x3099;0x313;0xB6F0],[0x314;0x1DEB;0xFE20;0x5D8;0x11B0;0x42;0x3099;0x307;0x313;0x1104;0x1171]));
([0x16B35;0x300;0x11AC;0xAAB4;0x7891;0x32D;0xCA4C;0x45],([0x16B35;0x300;0x11AC;0xAAB4;0x7891;0x32D;0x110D;0x1165;0x45],[0x16B35;0x300;0x11AC;0xAAB4;0x7891;0x32D;0xCA4C;0x45],[0x16B35;0x300;0x11AC;0xAAB4;0x7891;0x32D;0x110D;0x1165;0x45]));
([0xB82D],([0x1105;0x1167;0x11B0],[0xB82D],[0x1105;0x1167;0x11B0]));
([0x314;0x110E;0xCD5C;0x2F830;0x35A;0x300],([0x314;0x110E;0x110E;0x116C;0x537D;0x35A;0x300],[0x314;0x110E;0xCD5C;0x537D;0x35A;0x300],[0x314;0x110E;0x110E;0x116C;0x537D;0x35A;0x300]));
([0x8EB;0x3B7;0xD6E3;0x1D1AD],([0x8EB;0x3B7;0x1112;0x116F;0x11AA;0x1D1AD],[0x8EB;0x3B7;0xD6E3;0x1D1AD],[0x8EB;0x3B7;0x1112;0x116F;0x11AA;0x1D1AD]));
([0x309;0xC378;0xCCD;0x1DF9;0x11C2;0x63;0x324],([0x309;0x110A;0x1165;0x11B7;0xCCD;0x1DF9;0x11C2;0x63;0x324],[0x309;0xC378;0xCCD;0x1DF9;0x11C2;0x63;0x324],[0x309;0x110A;0x1165;0x11B7;0xCCD;0x1DF9;0x11C2;0x63;0x324]));
([0xFB7;0x1E944],([0xFB7;0x1E944],[0xFB7;0x1E944],[0xFB7;0x1E944]));
([0x4E0D;0x2F807;0x24608],([0x4E0D;0x5002;0x24608],[0x4E0D;0x5002;0x24608],[0x4E0D;0x5002;0x24608]));
([0x3B1;0x1B43;0x8EA;0x5AE;0x1B6B;0x2CEF;0x302A;0x8E6],([0x3B1;0x1B42;0x1B35;0x302A;0x8E6;0x5AE;0x8EA;0x1B6B;0x2CEF],[0x3B1;0x1B43;0x302A;0x8E6;0x5AE;0x8EA;0x1B6B;0x2CEF],[0x3B1;0x1B42;0x1B35;0x302A;0x8E6;0x5AE;0x8EA;0x1B6B;0x2CEF]));
([0x43;0x580D;0x2F944],([0x43;0x580D;0x25133],[0x43;0x580D;0x25133],[0x43;0x580D;0x25133]));
([0x11B2;0x1F07],([0x11B2;0x3B1;0x314;0x342],[0x11B2;0x1F07],[0x11B2;0x3B1;0x314;0x342]));
([0x6EC;0x345;0x72;0xCE7B;0x3099;0x11B1;0x1E88;0x8D6],([0x6EC;0x345;0x72;0x110F;0x1161;0x11AE;0x3099;0x11B1;0x57;0x323;0x8D6],[0x6EC;0x345;0x72;0xCE7B;0x3099;0x11B1;0x1E88;0x8D6],[0x6EC;0x345;0x72;0x110F;0x1161;0x11AE;0x3099;0x11B1;0x57;0x323;0x8D6]));
([0x345;0x304;0x64;0x1A17;0x6E1A;0x1109;0x1E135;0xA8EA],([0x304;0x345;0x64;0x1A17;0x6E1A;0x1109;0x1E135;0xA8EA],[0x304;0x345;0x64;0x1A17;0x6E1A;0x1109;0x1E135;0xA8EA],[0x304;0x345;0x64;0x1A17;0x6E1A;0x1109;0x1E135;0xA8EA]));
([0x6ED1;0xA806],([0x6ED1;0xA806],[0x6ED1;0xA806],[0x6ED1;0xA806]));
([0x301;0x89D;0x307;0xCC23;0xD635;0x1170;0x7485;0xFA40;0x2DFA],([0x301;0x89D;0x307;0x110D;0x1175;0x11BE;0x1112;0x1168;0x11C0;0x1170;0x7485;0x61F2;0x2DFA],[0x301;0x89D;0x307;0xCC23;0xD635;0x1170;0x7485;0x61F2;0x2DFA],[0x301;0x89D;0x307;0x110D;0x1175;0x11BE;0x1112;0x1168;0x11C0;0x1170;0x7485;0x61F2;0x2DFA]));
([0x9A2;0x1CDB;0x1D5C5;0x328;0x72;0x331],([0x9A2;0x1CDB;0x1D5C5;0x328;0x72;0x331],[0x9A2;0x1CDB;0x1D5C5;0x328;0x1E5F],[0x9A2;0x1CDB;0x6C;0x328;0x72;0x331]));
([0x303;0x314;0x2F852;0x110C],([0x303;0x314;0x57CE;0x110C],[0x303;0x314;0x57CE;0x110C],[0x303;0x314;0x57CE;0x110C]));
([0xF907;0x1715;0x1ABD;0x1170;0x45;0x369;0x829;0x5154],([0x9F9C;0x1715;0x1ABD;0x1170;0x45;0x369;0x829;0x5154],[0x9F9C;0x1715;0x1ABD;0x1170;0x45;0x369;0x829;0x5154],[0x9F9C;0x1715;0x1ABD;0x1170;0x45;0x369;0x829;0x5154]));
([0x8D9;0xA8E2;0xF970;0x1CD2],([0x8D9;0xA8E2;0x6BBA;0x1CD2],[0x8D9;0xA8E2;0x6BBA;0x1CD2],[0x8D9;0xA8E2;0x6BBA;0x1CD2]));
([0x38C],([0x39F;0x301],[0x38C],[0x39F;0x301]));
([0x1174;0xBD10;0x1AC1;0x1AC3;0x114BC],([0x1174;0x1107;0x116A;0x1AC3;0x1AC1;0x114B9;0x114B0],[0x1174;0xBD10;0x1AC3;0x1AC1;0x114BC],[0x1174;0x1107;0x116A;0x1AC3;0x1AC1;0x114B9;0x114B0]));
([0xFC;0x66C6;0x110F;0xCEAC;0x3515],([0x75;0x308;0x66C6;0x110F;0x110F;0x1163;0x3515],[0xFC;0x66C6;0x110F;0xCEAC;0x3515],[0x75;0x308;0x66C6;0x110F;0x110F;0x1163;0x3515]));
([0xC81C;0x101FD;0x1168;0xA8ED;0x43;0x4039;0xD710;0x9BE],([0x110C;0x1166;0x101FD;0x1168;0xA8ED;0x43;0x4039;0x1112;0x1170;0x11BB;0x9BE],[0xC81C;0x101FD;0x1168;0xA8ED;0x43;0x4039;0xD710;0x9BE],[0x110C;0x1166;0x101FD;0x1168;0xA8ED;0x43;0x4039;0x1112;0x1170;0x11BB;0x9BE]));
([0xFB4D;0x3A9;0x11A9;0x2F9E5;0x1F8D;0x53;0x1104;0xA8E6],([0x5DB;0x5BF;0x3A9;0x11A9;0x2872E;0x391;0x314;0x301;0x345;0x53;0x1104;0xA8E6],[0x5DB;0x5BF;0x3A9;0x11A9;0x2872E;0x1F8D;0x53;0x1104;0xA8E6],[0x5DB;0x5BF;0x3A9;0x11A9;0x2872E;0x391;0x314;0x301;0x345;0x53;0x1104;0xA8E6]));
([0x1107;0x11BC;0x2F9F7],([0x1107;0x11BC;0x2921A],[0x1107;0x11BC;0x2921A],[0x1107;0x11BC;0x2921A]));
([0xFE21;0xB57;0x1FD;0x116A;0x69;0x30AD],([0xFE21;0xB57;0xE6;0x301;0x116A;0x69;0x30AD],[0xFE21;0xB57;0x1FD;0x116A;0x69;0x30AD],[0xFE21;0xB57;0xE6;0x301;0x116A;0x69;0x30AD]));
([0xF91D;0x11D97;0x74;0x308;0xD718],([0x6B04;0x11D97;0x74;0x308;0x1112;0x1171],[0x6B04;0x11D97;0x1E97;0xD718],[0x6B04;0x11D97;0x74;0x308;0x1112;0x1171]));
([0x3099;0x11B6;0x6D9;0x62;0x89A;0x13B;0x2F95A;0x114C2;0x2F9B7],([0x3099;0x11B6;0x6D9;0x62;0x89A;0x4C;0x327;0x7A4A;0x114C2;0x86A9],[0x3099;0x11B6;0x6D9;0x62;0x89A;0x13B;0x7A4A;0x114C2;0x86A9],[0x3099;0x11B6;0x6D9;0x62;0x89A;0x4C;0x327;0x7A4A;0x114C2;0x86A9]));
([0x1168;0x954;0x1ED9;0xF933],([0x1168;0x954;0x6F;0x323;0x302;0x76E7],[0x1168;0x954;0x1ED9;0x76E7],[0x1168;0x954;0x6F;0x323;0x302;0x76E7]));
([0x3D4;0x1AB8;0x96C3;0x1AB1;0xC772;0x1C37],([0x3D2;0x1AB8;0x308;0x96C3;0x1AB1;0x110B;0x1174;0x11C1;0x1C37],[0x3D4;0x1AB8;0x96C3;0x1AB1;0xC772;0x1C37],[0x3A5;0x1AB8;0x308;0x96C3;0x1AB1;0x110B;0x1174;0x11C1;0x1C37]));
([0x4C;0xCBC;0x22B4;0xC3DD;0x11173;0x314],([0x4C;0xCBC;0x22B4;0x110A;0x1169;0x11AC;0x11173;0x314],[0x4C;0xCBC;0x22B4;0xC3DD;0x11173;0x314],[0x4C;0xCBC;0x22B4;0x110A;0x1169;0x11AC;0x11173;0x314]));
([0x2F87A;0x2DF1;0x42;0x17DD;0x4227;0x323],([0x5C8D;0x2DF1;0x42;0x17DD;0x4227;0x323],[0x5C8D;0x2DF1;0x42;0x17DD;0x4227;0x323],[0x5C8D;0x2DF1;0x42;0x17DD;0x4227;0x323]));
([0xB515;0x1D172;0x1D170;0x20EA],([0x1103;0x1175;0x11A8;0x20EA;0x1D172;0x1D170],[0xB515;0x20EA;0x1D172;0x1D170],[0x1103;0x1175;0x11A8;0x20EA;0x1D172;0x1D170]));
([0x2DF4;0x1E17],([0x2DF4;0x65;0x304;0x301],[0x2DF4;0x1E17],[0x2DF4;0x65;0x304;0x301]));
([0x397;0x11B3;0x24E1;0x363],([0x397;0x11B3;0x24E1;0x363],[0x397;0x11B3;0x24E1;0x363],[0x397;0x11B3;0x72;0x363]));
([0x76DB;0xB418;0x3BF;0xAEF4;0x2DEF;0x110A;0xF9FD;0x10A0D;0x63A0],([0x76DB;0x1103;0x116C;0x3BF;0x1101;0x1167;0x2DEF;0x110A;0x4EC0;0x10A0D;0x63A0],[0x76DB;0xB418;0x3BF;0xAEF4;0x2DEF;0x110A;0x4EC0;0x10A0D;0x63A0],[0x76DB;0x1103;0x116C;0x3BF;0x1101;0x1167;0x2DEF;0x110A;0x4EC0;0x10A0D;0x63A0]));
([0x41],([0x41],[0x41],[0x41]));
([0x30C;0x21B;0x2F910;0x10A;0x1D57E;0x57;0x1171;0xAABF],([0x30C;0x74;0x326;0x23F5E;0x43;0x307;0x1D57E;0x57;0x1171;0xAABF],[0x30C;0x21B;0x23F5E;0x10A;0x1D57E;0x57;0x1171;0xAABF],[0x30C;0x74;0x326;0x23F5E;0x43;0x307;0x53;0x57;0x1171;0xAABF]));
([0x11B1;0x6DF;0x75;0x5D5;0xFE29;0x5606],([0x11B1;0x6DF;0x75;0x5D5;0xFE29;0x5606],[0x11B1;0x6DF;0x75;0x5D5;0xFE29;0x5606],[0x11B1;0x6DF;0x75;0x5D5;0xFE29;0x5606]));
([0x1D469;0x57;0x81B;0x116F],([0x1D469;0x57;0x81B;0x116F],[0x1D469;0x57;0x81B;0x116F],[0x42;0x57;0x81B;0x116F]));
([0x1DC2;0x331],([0x1DC2;0x331],[0x1DC2;0x331],[0x1DC2;0x331]));
([0x10A3A],([0x10A3A],[0x10A3A],[0x10A3A]));
([0x31B;0x316;0xF80;0x207E],([0xF80;0x31B;0x316;0x207E],[0xF80;0x31B;0x316;0x207E],[0xF80;0x31B;0x316;0x29]));
([0x3C9;0x2DE4],([0x3C9;0x2DE4],[0x3C9;0x2DE4],[0x3C9;0x2DE4]));
([0x119E0;0xF911;0x2F948;0x1169],([0x119E0;0x87BA;0x774A;0x1169],[0x119E0;0x87BA;0x774A;0x1169],[0x119E0;0x87BA;0x774A;0x1169]));
([0x1F6C;0x2F848;0xCA36;0x219A;0x3A2E;0x10A39;0x7409;0xC661],([0x3A9;0x313;0x301;0x55AB;0x110D;0x1164;0x11AD;0x2190;0x338;0x3A2E;0x10A39;0x7409;0x110B;0x116B;0x11AC],[0x1F6C;0x55AB;0xCA36;0x219A;0x3A2E;0x10A39;0x7409;0xC661],[0x3A9;0x313;0x301;0x55AB;0x110D;0x1164;0x11AD;0x2190;0x338;0x3A2E;0x10A39;0x7409;0x110B;0x116B;0x11AC]));
([0x1EE2B;0x4E;0x301;0x11A7;0x16AF3;0x1ABD],([0x1EE2B;0x4E;0x301;0x11A7;0x16AF3;0x1ABD],[0x1EE2B;0x143;0x11A7;0x16AF3;0x1ABD],[0x644;0x4E;0x301;0x11A7;0x16AF3;0x1ABD]));
([0x11236;0x2DE4;0xD4C;0x1E18;0x41;0x11A47;0x3B7],([0x11236;0x2DE4;0xD46;0xD57;0x45;0x32D;0x41;0x11A47;0x3B7],[0x11236;0x2DE4;0xD4C;0x1E18;0x41;0x11A47;0x3B7],[0x11236;0x2DE4;0xD46;0xD57;0x45;0x32D;0x41;0x11A47;0x3B7]));
([0x1134C],([0x11347;0x11357],[0x1134C],[0x11347;0x11357]));
([0x2F93D;0x1FDF;0x487;0x6E6E;0x314;0xA8E2],([0x25044;0x1FFE;0x342;0x487;0x6E6E;0x314;0xA8E2],[0x25044;0x1FDF;0x487;0x6E6E;0x314;0xA8E2],[0x25044;0x20;0x314;0x342;0x487;0x6E6E;0x314;0xA8E2]));
([0x301;0xAF03;0x1171;0x6C;0x305B;0x304;0x4B;0x1939],([0x301;0x1101;0x1167;0x11B6;0x1171;0x6C;0x305B;0x304;0x4B;0x1939],[0x301;0xAF03;0x1171;0x6C;0x305B;0x304;0x4B;0x1939],[0x301;0x1101;0x1167;0x11B6;0x1171;0x6C;0x305B;0x304;0x4B;0x1939]));
([0xC1E0;0x8606;0xFAC4;0x6F;0x1F6C;0x6B04],([0x1109;0x116C;0x8606;0x9199;0x6F;0x3A9;0x313;0x301;0x6B04],[0xC1E0;0x8606;0x9199;0x6F;0x1F6C;0x6B04],[0x1109;0x116C;0x8606;0x9199;0x6F;0x3A9;0x313;0x301;0x6B04]));
([0x3066;0x1E2EC;0x76DB;0xF7A;0x300],([0x3066;0x1E2EC;0x76DB;0xF7A;0x300],[0x3066;0x1E2EC;0x76DB;0xF7A;0x300],[0x3066;0x1E2EC;0x76DB;0xF7A;0x300]));
([0x1DEB;0x32C2],([0x1DEB;0x32C2],[0x1DEB;0x32C2],[0x1DEB;0x33;0x6708]));
([0x305],([0x305],[0x305],[0x305]));
([0x8D0;0xB9AC;0xFB7;0x5C7;0x63;0x4EF;0x2DF9;0x2F91F;0x50],([0x8D0;0x1105;0x1175;0xFB7;0x5C7;0x63;0x443;0x304;0x2DF9;0x243AB;0x50],[0x8D0;0xB9AC;0xFB7;0x5C7;0x63;0x4EF;0x2DF9;0x243AB;0x50],[0x8D0;0x1105;0x1175;0xFB7;0x5C7;0x63;0x443;0x304;0x2DF9;0x243AB;0x50]));
([0x35F;0x323],([0x323;0x35F],[0x323;0x35F],[0x323;0x35F]));
([0x11BC;0x2FA17;0x313;0x348;0x619;0xAE37;0x323],([0x11BC;0x9EF9;0x619;0x348;0x313;0x1100;0x1175;0x11AE;0x323],[0x11BC;0x9EF9;0x619;0x348;0x313;0xAE37;0x323],[0x11BC;0x9EF9;0x619;0x348;0x313;0x1100;0x1175;0x11AE;0x323]));
([0x64;0xA678],([0x64;0xA678],[0x64;0xA678],[0x64;0xA678]));
([0x16FF1;0x5A4;0x11370;0x11B0;0x1105;0x302D],([0x16FF1;0x5A4;0x11370;0x11B0;0x1105;0x302D],[0x16FF1;0x5A4;0x11370;0x11B0;0x1105;0x302D],[0x16FF1;0x5A4;0x11370;0x11B0;0x1105;0x302D]));
([0x204],([0x45;0x30F],[0x204],[0x45;0x30F]));
([0x135D;0x301;0x24263;0x313;0x10AE5;0x616;0x1101;0xD5;0x313],([0x135D;0x301;0x24263;0x313;0x10AE5;0x616;0x1101;0x4F;0x303;0x313],[0x135D;0x301;0x24263;0x313;0x10AE5;0x616;0x1101;0xD5;0x313],[0x135D;0x301;0x24263;0x313;0x10AE5;0x616;0x1101;0x4F;0x303;0x313]));
([0x1E036;0x610;0x45;0x2F86D;0x1E130;0xD2FE;0x6E3],([0x1E036;0x610;0x45;0x5BC3;0x1E130;0x1110;0x1175;0x11B5;0x6E3],[0x1E036;0x610;0x45;0x5BC3;0x1E130;0xD2FE;0x6E3],[0x436;0x610;0x45;0x5BC3;0x1E130;0x1110;0x1175;0x11B5;0x6E3]));
([0xFE22;0x64;0x343;0x25133;0xC004;0x47;0xA8EF;0x399],([0xFE22;0x64;0x313;0x25133;0x1108;0x1170;0x47;0xA8EF;0x399],[0xFE22;0x64;0x313;0x25133;0xC004;0x47;0xA8EF;0x399],[0xFE22;0x64;0x313;0x25133;0x1108;0x1170;0x47;0xA8EF;0x399]));
([0x115BF;0x20D9;0x1E0A;0x314;0xFA57;0xB5BC],([0x20D9;0x115BF;0x44;0x307;0x314;0x7DF4;0x1104;0x1166],[0x20D9;0x115BF;0x1E0A;0x314;0x7DF4;0xB5BC],[0x20D9;0x115BF;0x44;0x307;0x314;0x7DF4;0x1104;0x1166]));
([0x1EF8;0x30F;0x4E8;0x16FF0;0xB274;0x1167],([0x59;0x303;0x30F;0x4E8;0x16FF0;0x1102;0x1172;0x1167],[0x1EF8;0x30F;0x4E8;0x16FF0;0xB274;0x1167],[0x59;0x303;0x30F;0x4E8;0x16FF0;0x1102;0x1172;0x1167]));
([0xC640;0xD214;0x1BE6;0x327;0x68;0xBB88;0x313;0xDD9],([0x110B;0x116A;0x1110;0x116D;0x11AB;0x1BE6;0x327;0x68;0x1106;0x1171;0x313;0xDD9],[0xC640;0xD214;0x1BE6;0x327;0x68;0xBB88;0x313;0xDD9],[0x110B;0x116A;0x1110;0x116D;0x11AB;0x1BE6;0x327;0x68;0x1106;0x1171;0x313;0xDD9]));
([0x321;0x1F60],([0x321;0x3C9;0x313],[0x321;0x1F60],[0x321;0x3C9;0x313]));
([0x20D5;0x63;0x313;0x41],([0x20D5;0x63;0x313;0x41],[0x20D5;0x63;0x313;0x41],[0x20D5;0x63;0x313;0x41]));
([0x11BD;0x2F803;0x6E1A;0x1DAB],([0x11BD;0x20122;0x6E1A;0x1DAB],[0x11BD;0x20122;0x6E1A;0x1DAB],[0x11BD;0x20122;0x6E1A;0x29F]));
([0x1136A;0x6B;0x116F],([0x1136A;0x6B;0x116F],[0x1136A;0x6B;0x116F],[0x1136A;0x6B;0x116F]));
([0xD497;0x399;0xB5D8;0x614;0x6469;0x11A8;0xF90E;0x46;0x33A8],([0x1111;0x116F;0x11AA;0x399;0x1104;0x1167;0x614;0x6469;0x11A8;0x7669;0x46;0x33A8],[0xD497;0x399;0xB5D8;0x614;0x6469;0x11A8;0x7669;0x46;0x33A8],[0x1111;0x116F;0x11AA;0x399;0x1104;0x1167;0x614;0x6469;0x11A8;0x7669;0x46;0x6D;0x2215;0x73;0x32]));
([0x10F4D;0x8CA],([0x10F4D;0x8CA],[0x10F4D;0x8CA],[0x10F4D;0x8CA]));
([0x2F8D5;0x54;0xCE83;0x3D96;0x5FCD;0x306;0x67],([0x669C;0x54;0x110F;0x1161;0x11B6;0x3D96;0x5FCD;0x306;0x67],[0x669C;0x54;0xCE83;0x3D96;0x5FCD;0x306;0x67],[0x669C;0x54;0x110F;0x1161;0x11B6;0x3D96;0x5FCD;0x306;0x67]));
([0xD1CC;0xDD;0x1108;0x68],([0x1110;0x116A;0x11B7;0x59;0x301;0x1108;0x68],[0xD1CC;0xDD;0x1108;0x68],[0x1110;0x116A;0x11B7;0x59;0x301;0x1108;0x68]));
([0x303;0x342;0x73E],([0x73E;0x303;0x342],[0x73E;0x303;0x342],[0x73E;0x303;0x342]));
([0x921;0x1E35;0x9CC;0x8C55;0x30B7],([0x921;0x6B;0x331;0x9C7;0x9D7;0x8C55;0x30B7],[0x921;0x1E35;0x9CC;0x8C55;0x30B7],[0x921;0x6B;0x331;0x9C7;0x9D7;0x8C55;0x30B7]));
([0xB77E;0xC8E0;0xC004;0x1110;0xFE28;0x243AB],([0x1105;0x1161;0x11A9;0x110C;0x116D;0x1108;0x1170;0x1110;0xFE28;0x243AB],[0xB77E;0xC8E0;0xC004;0x1110;0xFE28;0x243AB],[0x1105;0x1161;0x11A9;0x110C;0x116D;0x1108;0x1170;0x1110;0xFE28;0x243AB]));
([0x1D1BA;0xFAD9;0x119E0;0x5317;0x5E3D],([0x1D1BA;0x9F8E;0x119E0;0x5317;0x5E3D],[0x1D1BA;0x9F8E;0x119E0;0x5317;0x5E3D],[0x1D1BA;0x9F8E;0x119E0;0x5317;0x5E3D]));
([0x1EC2;0x2DEF;0x1E8D0;0x110E;0x1FBF9;0x69;0x2F8CB],([0x45;0x1E8D0;0x302;0x309;0x2DEF;0x110E;0x1FBF9;0x69;0x65E3],[0x1EC2;0x1E8D0;0x2DEF;0x110E;0x1FBF9;0x69;0x65E3],[0x45;0x1E8D0;0x302;0x309;0x2DEF;0x110E;0x39;0x69;0x65E3]));
([0x1E00A;0x622;0x301;0xFA89;0x301;0x1DD9;0x742],([0x1E00A;0x627;0x653;0x301;0x618E;0x742;0x301;0x1DD9],[0x1E00A;0x622;0x301;0x618E;0x742;0x301;0x1DD9],[0x1E00A;0x627;0x653;0x301;0x618E;0x742;0x301;0x1DD9]));
([0xCE26;0x1F143],([0x110E;0x1173;0x11AD;0x1F143],[0xCE26;0x1F143],[0x110E;0x1173;0x11AD;0x54]));
([0x116B6;0x397],([0x116B6;0x397],[0x116B6;0x397],[0x116B6;0x397]));
([0x43;0x1CD1;0x1F26;0xFEAD;0x393A;0x1D55C;0x116C;0x3065],([0x43;0x1CD1;0x3B7;0x313;0x342;0xFEAD;0x393A;0x1D55C;0x116C;0x3064;0x3099],[0x43;0x1CD1;0x1F26;0xFEAD;0x393A;0x1D55C;0x116C;0x3065],[0x43;0x1CD1;0x3B7;0x313;0x342;0x631;0x393A;0x6B;0x116C;0x3064;0x3099]));
([0x1173;0x6F;0x4B],([0x1173;0x6F;0x4B],[0x1173;0x6F;0x4B],[0x1173;0x6F;0x4B]));
([0x307;0x2F954;0x1CD0;0x39F;0x314;0x2DE5;0x65A],([0x307;0x2569A;0x1CD0;0x39F;0x314;0x2DE5;0x65A],[0x307;0x2569A;0x1CD0;0x1F49;0x2DE5;0x65A],[0x307;0x2569A;0x1CD0;0x39F;0x314;0x2DE5;0x65A]));
([0x6EBA;0xBB8B;0x731],([0x6EBA;0x1106;0x1171;0x11AA;0x731],[0x6EBA;0xBB8B;0x731],[0x6EBA;0x1106;0x1171;0x11AA;0x731]));
([0x110C],([0x110C],[0x110C],[0x110C]));
([0xB7F1;0x1CD9],([0x1105;0x1165;0x11AC;0x1CD9],[0xB7F1;0x1CD9],[0x1105;0x1165;0x11AC;0x1CD9]));
([0x103A],([0x103A],[0x103A],[0x103A]));
([0x52E4;0x3099],([0x52E4;0x3099],[0x52E4;0x3099],[0x52E4;0x3099]));
([0x65;0x59;0x7559;0xC0BF;0x5AD;0x3341;0x2F86C;0x2003],([0x65;0x59;0x7559;0x1109;0x1161;0x11BA;0x5AD;0x3341;0x219C8;0x2003],[0x65;0x59;0x7559;0xC0BF;0x5AD;0x3341;0x219C8;0x2003],[0x65;0x59;0x7559;0x1109;0x1161;0x11BA;0x5AD;0x30DB;0x30FC;0x30EB;0x219C8;0x20]));
([0x11BC;0x301;0x301;0xF80;0x1169;0x82D;0x3B9;0x2DE9;0xF9AE],([0x11BC;0xF80;0x301;0x301;0x1169;0x82D;0x3B9;0x2DE9;0x7469],[0x11BC;0xF80;0x301;0x301;0x1169;0x82D;0x3B9;0x2DE9;0x7469],[0x11BC;0xF80;0x301;0x301;0x1169;0x82D;0x3B9;0x2DE9;0x7469]));
([0x278AE;0x11A8;0x1AC4;0x1A78;0x1109;0xA92D;0x1E04;0x3E],([0x278AE;0x11A8;0x1AC4;0x1A78;0x1109;0xA92D;0x42;0x323;0x3E],[0x278AE;0x11A8;0x1AC4;0x1A78;0x1109;0xA92D;0x1E04;0x3E],[0x278AE;0x11A8;0x1AC4;0x1A78;0x1109;0xA92D;0x42;0x323;0x3E]));
([0x1E00F],([0x1E00F],[0x1E00F],[0x1E00F]));
([0x1134D],([0x1134D],[0x1134D],[0x1134D]));
([0xF9CC;0x2F8A0;0xA8ED;0xFF85;0x7DF4;0x1D188],([0x7409;0x6081;0xA8ED;0xFF85;0x7DF4;0x1D188],[0x7409;0x6081;0xA8ED;0xFF85;0x7DF4;0x1D188],[0x7409;0x6081;0xA8ED;0x30CA;0x7DF4;0x1D188]));
([0xFF9E;0xA8EF;0x7EC;0x1161],([0xFF9E;0xA8EF;0x7EC;0x1161],[0xFF9E;0xA8EF;0x7EC;0x1161],[0x3099;0xA8EF;0x7EC;0x1161]));
([0x10A3A;0x65;0x314;0x331;0x1DF5;0x12D;0xF9ED],([0x10A3A;0x65;0x331;0x314;0x1DF5;0x69;0x306;0x541D],[0x10A3A;0x65;0x331;0x314;0x1DF5;0x12D;0x541D],[0x10A3A;0x65;0x331;0x314;0x1DF5;0x69;0x306;0x541D]));
([0x2FA1B;0x1161;0x613],([0x9F16;0x1161;0x613],[0x9F16;0x1161;0x613],[0x9F16;0x1161;0x613]));
([0x54;0xA8E2;0x33B],([0x54;0x33B;0xA8E2],[0x54;0x33B;0xA8E2],[0x54;0x33B;0xA8E2]));
([0x45],([0x45],[0x45],[0x45]));
([0x81E;0x62;0xD248;0x303;0x64;0x82E5;0x81D],([0x81E;0x62;0x1110;0x116F;0x303;0x64;0x82E5;0x81D],[0x81E;0x62;0xD248;0x303;0x64;0x82E5;0x81D],[0x81E;0x62;0x1110;0x116F;0x303;0x64;0x82E5;0x81D]));
([0x1162;0x10377;0x2F939;0x11AF;0x356;0xB53E;0xFEEF;0xB4C0],([0x1162;0x10377;0x2219F;0x11AF;0x356;0x1104;0x1161;0x11B5;0xFEEF;0x1103;0x1172],[0x1162;0x10377;0x2219F;0x11AF;0x356;0xB53E;0xFEEF;0xB4C0],[0x1162;0x10377;0x2219F;0x11AF;0x356;0x1104;0x1161;0x11B5;0x649;0x1103;0x1172]));
([0x593;0x1D166;0x4F;0xD3B;0x345;0x11B3;0x2FBB;0x61],([0x1D166;0x593;0x4F;0xD3B;0x345;0x11B3;0x2FBB;0x61],[0x1D166;0x593;0x4F;0xD3B;0x345;0x11B3;0x2FBB;0x61],[0x1D166;0x593;0x4F;0xD3B;0x345;0x11B3;0x9AA8;0x61]));
([0x744;0x8ED;0x302;0xF71;0x63;0x64F;0x1C37;0xB85C],([0xF71;0x744;0x8ED;0x302;0x63;0x1C37;0x64F;0x1105;0x1169],[0xF71;0x744;0x8ED;0x302;0x63;0x1C37;0x64F;0xB85C],[0xF71;0x744;0x8ED;0x302;0x63;0x1C37;0x64F;0x1105;0x1169]));
([0x114BD;0x1E946],([0x114BD;0x1E946],[0x114BD;0x1E946],[0x114BD;0x1E946]));
([0x825;0xC424;0xAC00;0x1DD1;0x11AA],([0x825;0x110A;0x116B;0x11BB;0x1100;0x1161;0x1DD1;0x11AA],[0x825;0xC424;0xAC00;0x1DD1;0x11AA],[0x825;0x110A;0x116B;0x11BB;0x1100;0x1161;0x1DD1;0x11AA]));
([0xF84;0x1EF8;0x70;0xAAB0;0x1BF3;0x55],([0xF84;0x59;0x303;0x70;0x1BF3;0xAAB0;0x55],[0xF84;0x1EF8;0x70;0x1BF3;0xAAB0;0x55],[0xF84;0x59;0x303;0x70;0x1BF3;0xAAB0;0x55]));
([0x7406;0x2F972;0x3B7;0x59E;0xFA4F;0x148],([0x7406;0x26228;0x3B7;0x59E;0x7950;0x6E;0x30C],[0x7406;0x26228;0x3B7;0x59E;0x7950;0x148],[0x7406;0x26228;0x3B7;0x59E;0x7950;0x6E;0x30C]));
([0x1112;0x2F980;0x82B;0x1E4A],([0x1112;0x2335F;0x82B;0x4E;0x32D],[0x1112;0x2335F;0x82B;0x1E4A],[0x1112;0x2335F;0x82B;0x4E;0x32D]));
([0x10EFF;0x6B],([0x10EFF;0x6B],[0x10EFF;0x6B],[0x10EFF;0x6B]));
([0x11B1],([0x11B1],[0x11B1],[0x11B1]));
([0x1B43;0xC4D;0x345;0x304;0x6DF;0xB9C8;0x1F6D;0x11F41],([0x1B42;0x1B35;0xC4D;0x304;0x6DF;0x345;0x1106;0x1161;0x3A9;0x11F41;0x314;0x301],[0x1B43;0xC4D;0x304;0x6DF;0x345;0xB9C8;0x1F6D;0x11F41],[0x1B42;0x1B35;0xC4D;0x304;0x6DF;0x345;0x1106;0x1161;0x3A9;0x11F41;0x314;0x301]));
([0x301;0x1D244;0xB140;0x2F8CC;0x446B;0x1DE0],([0x301;0x1D244;0x1102;0x1167;0x66F8;0x446B;0x1DE0],[0x301;0x1D244;0xB140;0x66F8;0x446B;0x1DE0],[0x301;0x1D244;0x1102;0x1167;0x66F8;0x446B;0x1DE0]));
([0xFB46;0x5B7;0x8449],([0x5E6;0x5B7;0x5BC;0x8449],[0x5E6;0x5B7;0x5BC;0x8449],[0x5E6;0x5B7;0x5BC;0x8449]));
([0x1FA2],([0x3C9;0x313;0x300;0x345],[0x1FA2],[0x3C9;0x313;0x300;0x345]));
([0x1104;0xBA1D;0xD3C;0x302;0xF986;0x312;0x1B34;0x1A75],([0x1104;0x1106;0x1164;0x11A8;0xD3C;0x302;0x95AD;0x1B34;0x312;0x1A75],[0x1104;0xBA1D;0xD3C;0x302;0x95AD;0x1B34;0x312;0x1A75],[0x1104;0x1106;0x1164;0x11A8;0xD3C;0x302;0x95AD;0x1B34;0x312;0x1A75]));
([0x4F;0x323;0x307B;0x6422;0x1D600;0x6F],([0x4F;0x323;0x307B;0x6422;0x1D600;0x6F],[0x1ECC;0x307B;0x6422;0x1D600;0x6F],[0x4F;0x323;0x307B;0x6422;0x73;0x6F]));
([0xAAF6;0x20DA;0x267A7;0x110BA;0x110B],([0x20DA;0xAAF6;0x267A7;0x110BA;0x110B],[0x20DA;0xAAF6;0x267A7;0x110BA;0x110B],[0x20DA;0xAAF6;0x267A7;0x110BA;0x110B]));
([0x1E61;0xF957],([0x73;0x307;0x7DBE],[0x1E61;0x7DBE],[0x73;0x307;0x7DBE]));
([0x345;0xA3C;0xC96C;0x3B1;0x2289;0x308;0x1D161],([0xA3C;0x345;0x110C;0x1172;0x3B1;0x2287;0x338;0x308;0x1D158;0x1D165;0x1D16F],[0xA3C;0x345;0xC96C;0x3B1;0x2289;0x308;0x1D158;0x1D165;0x1D16F],[0xA3C;0x345;0x110C;0x1172;0x3B1;0x2287;0x338;0x308;0x1D158;0x1D165;0x1D16F]));
([0x323;0xFA53;0x1DD4;0x8F7;0x304;0x48],([0x323;0x798E;0x1DD4;0x8F7;0x304;0x48],[0x323;0x798E;0x1DD4;0x8F7;0x304;0x48],[0x323;0x798E;0x1DD4;0x8F7;0x304;0x48]));
([0x70;0xCB10;0xFB1E;0x20EA;0x65B;0x236A3;0xB878;0x6F;0xF9A8],([0x70;0x110D;0x116C;0x20EA;0xFB1E;0x65B;0x236A3;0x1105;0x116A;0x6F;0x4EE4],[0x70;0xCB10;0x20EA;0xFB1E;0x65B;0x236A3;0xB878;0x6F;0x4EE4],[0x70;0x110D;0x116C;0x20EA;0xFB1E;0x65B;0x236A3;0x1105;0x116A;0x6F;0x4EE4]));
([0x2003;0xBE17;0x11BE],([0x2003;0x1107;0x1173;0x11B2;0x11BE],[0x2003;0xBE17;0x11BE],[0x20;0x1107;0x1173;0x11B2;0x11BE]));
([0x35B;0xCBC;0x1EF3;0x1169;0x1F240],([0xCBC;0x35B;0x79;0x300;0x1169;0x1F240],[0xCBC;0x35B;0x1EF3;0x1169;0x1F240],[0xCBC;0x35B;0x79;0x300;0x1169;0x3014;0x672C;0x3015]));
([0x50;0x1CF9;0x1F97;0x1DDB;0x1E50;0x1734;0x11BD;0x65],([0x50;0x1CF9;0x3B7;0x314;0x342;0x1DDB;0x345;0x4F;0x1734;0x304;0x300;0x11BD;0x65],[0x50;0x1CF9;0x1F97;0x1DDB;0x1E50;0x1734;0x11BD;0x65],[0x50;0x1CF9;0x3B7;0x314;0x342;0x1DDB;0x345;0x4F;0x1734;0x304;0x300;0x11BD;0x65]));
([0xCFA8;0x653;0x3099;0x306;0x79AE;0x611],([0x110F;0x116C;0x3099;0x653;0x306;0x79AE;0x611],[0xCFA8;0x3099;0x653;0x306;0x79AE;0x611],[0x110F;0x116C;0x3099;0x653;0x306;0x79AE;0x611]));
([0x1B6B;0x594;0x110C;0x68;0x1D67B;0x4C;0xC2AE;0x1111;0x3A5],([0x1B6B;0x594;0x110C;0x68;0x1D67B;0x4C;0x1109;0x1173;0x11B1;0x1111;0x3A5],[0x1B6B;0x594;0x110C;0x68;0x1D67B;0x4C;0xC2AE;0x1111;0x3A5],[0x1B6B;0x594;0x110C;0x68;0x4C;0x4C;0x1109;0x1173;0x11B1;0x1111;0x3A5]));
([0xBD3A;0x2F8E8;0x5C6E;0x2DF6],([0x1107;0x116B;0x11B5;0x6942;0x5C6E;0x2DF6],[0xBD3A;0x6942;0x5C6E;0x2DF6],[0x1107;0x116B;0x11B5;0x6942;0x5C6E;0x2DF6]));
([0x1D18A;0x11A47;0x1DEE;0xFA34],([0x11A47;0x1D18A;0x1DEE;0x52E4],[0x11A47;0x1D18A;0x1DEE;0x52E4],[0x11A47;0x1D18A;0x1DEE;0x52E4]));
([0x1BF3;0x330;0x114C2;0x1E08F;0x8E4;0x307;0x32A],([0x1BF3;0x114C2;0x330;0x32A;0x1E08F;0x8E4;0x307],[0x1BF3;0x114C2;0x330;0x32A;0x1E08F;0x8E4;0x307],[0x1BF3;0x114C2;0x330;0x32A;0x1E08F;0x8E4;0x307]));
([0x5A2;0x323;0x7228;0x3B9],([0x5A2;0x323;0x7228;0x3B9],[0x5A2;0x323;0x7228;0x3B9],[0x5A2;0x323;0x7228;0x3B9]));
([0x59;0x77],([0x59;0x77],[0x59;0x77],[0x59;0x77]));
([0x43D9],([0x43D9],[0x43D9],[0x43D9]));
([0x7EB;0x57;0x53;0xF95B;0xFAD5;0x2112;0x52;0x2F9BE;0x3B1],([0x7EB;0x57;0x53;0x62CF;0x25249;0x2112;0x52;0x8786;0x3B1],[0x7EB;0x57;0x53;0x62CF;0x25249;0x2112;0x52;0x8786;0x3B1],[0x7EB;0x57;0x53;0x62CF;0x25249;0x4C;0x52;0x8786;0x3B1]));
([0x93C;0x7DA0;0x1E1E;0x1193D;0x899],([0x93C;0x7DA0;0x46;0x1193D;0x899;0x307],[0x93C;0x7DA0;0x1E1E;0x1193D;0x899],[0x93C;0x7DA0;0x46;0x1193D;0x899;0x307]));
([0x1DE6;0x66;0x72;0x1F36;0x1105;0x364;0x4F],([0x1DE6;0x66;0x72;0x3B9;0x313;0x342;0x1105;0x364;0x4F],[0x1DE6;0x66;0x72;0x1F36;0x1105;0x364;0x4F],[0x1DE6;0x66;0x72;0x3B9;0x313;0x342;0x1105;0x364;0x4F]));
([0xA67D],([0xA67D],[0xA67D],[0xA67D]));
([0x2F803;0x2DA;0x1168;0x1108;0x1105;0xA8E6;0x303;0xFE26],([0x20122;0x2DA;0x1168;0x1108;0x1105;0xA8E6;0x303;0xFE26],[0x20122;0x2DA;0x1168;0x1108;0x1105;0xA8E6;0x303;0xFE26],[0x20122;0x20;0x30A;0x1168;0x1108;0x1105;0xA8E6;0x303;0xFE26]));
([0x1163;0x8F2;0x2DE9;0xB958;0x1172;0x71],([0x1163;0x8F2;0x2DE9;0x1105;0x1172;0x1172;0x71],[0x1163;0x8F2;0x2DE9;0xB958;0x1172;0x71],[0x1163;0x8F2;0x2DE9;0x1105;0x1172;0x1172;0x71]));
([0xA67A],([0xA67A],[0xA67A],[0xA67A]));
([0xB3A8;0x4D8;0x11AE;0x1E013;0x97FF;0x3099;0x11235;0x332],([0x1103;0x1168;0x4D8;0x11AE;0x1E013;0x97FF;0x3099;0x11235;0x332],[0xB3A8;0x4D8;0x11AE;0x1E013;0x97FF;0x3099;0x11235;0x332],[0x1103;0x1168;0x4D8;0x11AE;0x1E013;0x97FF;0x3099;0x11235;0x332]));
([0xAAB4;0x487;0x11B4;0x1E4EC;0x30C],([0xAAB4;0x487;0x11B4;0x30C;0x1E4EC],[0xAAB4;0x487;0x11B4;0x30C;0x1E4EC],[0xAAB4;0x487;0x11B4;0x30C;0x1E4EC]));
([0x1025;0x1E945;0x1E001;0x1D4B6;0x114BC;0x3305;0x1D77C;0xFA15],([0x1025;0x1E945;0x1E001;0x1D4B6;0x114B9;0x114B0;0x3305;0x1D77C;0x51DE],[0x1025;0x1E945;0x1E001;0x1D4B6;0x114BC;0x3305;0x1D77C;0x51DE],[0x1025;0x1E945;0x1E001;0x61;0x114B9;0x114B0;0x30A4;0x30F3;0x30C1;0x3BD;0x51DE]));
([0x20D9;0x1168;0xD0F8;0x7A81;0x163;0x62;0xF91B;0x2F855],([0x20D9;0x1168;0x1110;0x1163;0x7A81;0x74;0x327;0x62;0x4E82;0x578B],[0x20D9;0x1168;0xD0F8;0x7A81;0x163;0x62;0x4E82;0x578B],[0x20D9;0x1168;0x1110;0x1163;0x7A81;0x74;0x327;0x62;0x4E82;0x578B]));
([0x1E79;0x49;0x5349],([0x75;0x303;0x301;0x49;0x5349],[0x1E79;0x49;0x5349],[0x75;0x303;0x301;0x49;0x5349]));
([0x7ED;0x1A78;0x1D51;0x8E3],([0x7ED;0x1A78;0x1D51;0x8E3],[0x7ED;0x1A78;0x1D51;0x8E3],[0x7ED;0x1A78;0x14B;0x8E3]));
([0x391;0x1193E;0x438;0xF87;0x48;0x24608;0x301;0x7EE],([0x391;0x1193E;0x438;0xF87;0x48;0x24608;0x301;0x7EE],[0x391;0x1193E;0x438;0xF87;0x48;0x24608;0x301;0x7EE],[0x391;0x1193E;0x438;0xF87;0x48;0x24608;0x301;0x7EE]));
([0x1168;0x2CF1;0xFA92;0x1CDC;0x323;0x53],([0x1168;0x2CF1;0x6717;0x1CDC;0x323;0x53],[0x1168;0x2CF1;0x6717;0x1CDC;0x323;0x53],[0x1168;0x2CF1;0x6717;0x1CDC;0x323;0x53]));
([0x301;0x1ABD;0x1DCA;0x1172B;0x6075;0x314B],([0x1172B;0x1ABD;0x1DCA;0x301;0x6075;0x314B],[0x1172B;0x1ABD;0x1DCA;0x301;0x6075;0x314B],[0x1172B;0x1ABD;0x1DCA;0x301;0x6075;0x110F]));
([0xAF09;0x1E7],([0x1101;0x1167;0x11BC;0x67;0x30C],[0xAF09;0x1E7],[0x1101;0x1167;0x11BC;0x67;0x30C]));
([0xC62C;0x1107;0x1939;0x8ACB;0x1162;0x1E8D5;0x748],([0x110B;0x1169;0x11AF;0x1107;0x1939;0x8ACB;0x1162;0x1E8D5;0x748],[0xC62C;0x1107;0x1939;0x8ACB;0x1162;0x1E8D5;0x748],[0x110B;0x1169;0x11AF;0x1107;0x1939;0x8ACB;0x1162;0x1E8D5;0x748]));
([0x1F3E;0x1E011;0x6D8;0x78;0x314],([0x399;0x313;0x342;0x1E011;0x6D8;0x78;0x314],[0x1F3E;0x1E011;0x6D8;0x78;0x314],[0x399;0x313;0x342;0x1E011;0x6D8;0x78;0x314]));
([0x116C;0x66],([0x116C;0x66],[0x116C;0x66],[0x116C;0x66]));
([0x2DFC],([0x2DFC],[0x2DFC],[0x2DFC]));
([0x308;0xD022;0x2F9BF;0x1106;0x59;0xBDB3],([0x308;0x110F;0x1170;0x11B1;0x45D7;0x1106;0x59;0x1107;0x116F;0x11BE],[0x308;0xD022;0x45D7;0x1106;0x59;0xBDB3],[0x308;0x110F;0x1170;0x11B1;0x45D7;0x1106;0x59;0x1107;0x116F;0x11BE]));
([0x1175;0x1D6AC;0xFB47;0x308;0x11BC;0x2F812],([0x1175;0x1D6AC;0x5E7;0x5BC;0x308;0x11BC;0x2051C],[0x1175;0x1D6AC;0x5E7;0x5BC;0x308;0x11BC;0x2051C],[0x1175;0x395;0x5E7;0x5BC;0x308;0x11BC;0x2051C]))
].
