(** Generated by tools/gen_tests.py - do not edit.
    The expectations of the repository's own tests. *)
From Coq Require Import NArith List.
Import ListNotations.
Local Open Scope N_scope.

(** tests/basic-text-string.rs: TextString::from_text(a).unwrap() == b *)
Definition t_strict : list (list N * list N) := [
([],[]);
([0x68;0x65;0x6C;0x6C;0x6F;0x20;0x77;0x6F;0x72;0x6C;0x64;0x21],[0x68;0x65;0x6C;0x6C;0x6F;0x20;0x77;0x6F;0x72;0x6C;0x64;0x21]);
([0xA],[0xA]);
([9],[9]);
([0x20],[0x20]);
([0x5B;0x28;0x7B;0x22;0x5C;0x7E;0x40],[0x5B;0x28;0x7B;0x22;0x5C;0x7E;0x40]);
([9;0xA;0x20;0xA0],[9;0xA;0x20;0xA0]);
([0x2011;0xAD],[0x2011;0xAD]);
([0x41;0x34F;0x200C;0x200D;0x2060],[0x41;0x34F;0x200C;0x200D;0x2060]);
([0x200E;0x200F;0x61C],[0x200E;0x200F;0x61C]);
([0xFFFD],[0xFFFD]);
([0x10FFFD;0xFDFA;0x2800],[0x10FFFD;0xFDFA;0x2800]);
([0xE0000;0xE0002],[0x34F;0xE0000;0x34F;0xE0002;0x34F]);
([0x68;0x65;0x6C;0x6C;0x6F;0x306;0x306;0x306;0x306;0x306;0x306;0x306;0x306;0x306;0x306;0x306;0x306;0x306;0x306;0x306;0x306;0x306;0x306;0x306;0x306;0x306;0x306;0x306;0x306;0x306;0x306;0x306;0x306;0x306;0x306;0x306],[0x68;0x65;0x6C;0x6C;0x14F;0x306;0x306;0x306;0x306;0x306;0x306;0x306;0x306;0x306;0x306;0x306;0x306;0x306;0x306;0x306;0x306;0x306;0x306;0x306;0x306;0x306;0x306;0x306;0x306;0x306;0x306;0x306;0x306;0x306;0x34F;0x306]);
([0x68;0x65;0x6C;0x6C;0x14F;0x306;0x306;0x306;0x306;0x306;0x306;0x306;0x306;0x306;0x306;0x306;0x306;0x306;0x306;0x306;0x306;0x306;0x306;0x306;0x306;0x306;0x306;0x306;0x306;0x306;0x306;0x306;0x306;0x306;0x306],[0x68;0x65;0x6C;0x6C;0x14F;0x306;0x306;0x306;0x306;0x306;0x306;0x306;0x306;0x306;0x306;0x306;0x306;0x306;0x306;0x306;0x306;0x306;0x306;0x306;0x306;0x306;0x306;0x306;0x306;0x306;0x306;0x306;0x306;0x306;0x34F;0x306]);
([0x41;0x30A],[0xC5]);
([0x387],[0xB7]);
([0x41;0x327;0x30A],[0xC5;0x327]);
([0x41;0x327;0x327;0x327;0x327;0x327;0x327;0x327;0x327;0x327;0x327;0x327;0x327;0x327;0x327;0x327;0x327;0x327;0x327;0x327;0x327;0x327;0x327;0x327;0x327;0x327;0x327;0x327;0x327;0x327;0x30A],[0xC5;0x327;0x327;0x327;0x327;0x327;0x327;0x327;0x327;0x327;0x327;0x327;0x327;0x327;0x327;0x327;0x327;0x327;0x327;0x327;0x327;0x327;0x327;0x327;0x327;0x327;0x327;0x327;0x327;0x327]);
([0x41;0x327;0x327;0x327;0x327;0x327;0x327;0x327;0x327;0x327;0x327;0x327;0x327;0x327;0x327;0x327;0x327;0x327;0x327;0x327;0x327;0x327;0x327;0x327;0x327;0x327;0x327;0x327;0x327;0x327;0x327;0x30A],[0x41;0x327;0x327;0x327;0x327;0x327;0x327;0x327;0x327;0x327;0x327;0x327;0x327;0x327;0x327;0x327;0x327;0x327;0x327;0x327;0x327;0x327;0x327;0x327;0x327;0x327;0x327;0x327;0x327;0x327;0x327;0x34F;0x30A])].

(** tests/basic-text-string.rs: TextString::from_text_lossy(a) == b, up to line 772 *)
Definition t_lossy : list (list N * list N) := [
([0x34F;0x200C;0x200D;0x2060],[0x34F;0x200C;0x200D;0x2060]);
([0x200C;0x200D;0x2060],[0x34F;0x200C;0x200D;0x2060]);
([0x200D],[0x34F;0x200D;0x34F]);
([0x68;0x65;0x6C;0x6C;0x6F;0xC;0x77;0x6F;0x72;0x6C;0x64],[0x68;0x65;0x6C;0x6C;0x6F;0x20;0x77;0x6F;0x72;0x6C;0x64]);
([0x68;0x65;0x6C;0x6C;0x6F;0xC;0xC;0x77;0x6F;0x72;0x6C;0x64],[0x68;0x65;0x6C;0x6C;0x6F;0x20;0x77;0x6F;0x72;0x6C;0x64]);
([0xC],[0x20]);
([0xC;0xC],[0x20]);
([0xC;0xA],[0xA]);
([0xC;0xD],[0xA]);
([0xC;0xD;0xA],[0xA]);
([0xC;0xC;0xA],[0xA]);
([0xC;0xC;0xD],[0xA]);
([0xC;0xC;0xD;0xA],[0xA]);
([0xD;0xC;0xA],[0xA;0xA]);
([0xD;0xC;0xC;0xA],[0xA;0xA]);
([0xD;0xC;0xD;0xA],[0xA;0xA]);
([0xD;0xC;0xC;0xD;0xA],[0xA;0xA]);
([0xD;0xC;0xD],[0xA;0xA]);
([0xD;0xC;0xC;0xD],[0xA;0xA]);
([0xA;0xC;0xA],[0xA;0xA]);
([0xA;0xC;0xC;0xA],[0xA;0xA]);
([0xA;0xC;0xD;0xA],[0xA;0xA]);
([0xA;0xC;0xC;0xD;0xA],[0xA;0xA]);
([0xA;0xC;0xD],[0xA;0xA]);
([0xA;0xC;0xC;0xD],[0xA;0xA]);
([0xD;0xA;0xC;0xA],[0xA;0xA]);
([0xD;0xA;0xC;0xC;0xA],[0xA;0xA]);
([0xD;0xA;0xC;0xD;0xA],[0xA;0xA]);
([0xD;0xA;0xC;0xC;0xD;0xA],[0xA;0xA]);
([0xD;0xA;0xC;0xD],[0xA;0xA]);
([0xD;0xA;0xC;0xC;0xD],[0xA;0xA]);
([0x378],[0x34F;0x378;0x34F]);
([0x378;0x378],[0x34F;0x378;0x34F;0x378;0x34F]);
([0x34F;0x378;0x34F],[0x34F;0x378;0x34F]);
([0x34F;0x378;0x34F;0x378;0x34F],[0x34F;0x378;0x34F;0x378;0x34F]);
([0xFFFFF],[0xFFFD]);
([0xFFFFF;0xFFFFF],[0xFFFD;0xFFFD]);
([0x34F;0xFFFFF;0x34F],[0x34F;0xFFFD;0x34F]);
([0x34F;0xFFFFF;0x34F;0xFFFFF;0x34F],[0x34F;0xFFFD;0x34F;0xFFFD;0x34F]);
([0x41;0xBBA4;0x24;0xA8E4;0x3C;0xA8C4;0xA8C4;0xA8C4;0xA8C4;0xA8C4;0xA8E4;0xA8E4;0xA8E4;0xA8E4;0xA8E4;0xA8E4;0xA8E4;0xA8E4;0xA8E4;0xA8E4;0xA8E4;0xA8E4;0xA8E4;0xA8E4;0xA8E4;0xA8E4;0xA8C4;0xA8E4;0xA8E4;0xA8E4;0xA8C4;0xA8E4;0xA8E4;0xA8E4;0xA8E4;0xA8C4;0xA8E4;0xA8E4;0xA8E4;0xA8E4;0x5A],[0x41;0xBBA4;0x24;0xA8E4;0x3C;0xA8C4;0xA8C4;0xA8C4;0xA8C4;0xA8C4;0xA8C4;0xA8C4;0xA8E4;0xA8E4;0xA8E4;0xA8E4;0xA8E4;0xA8E4;0xA8E4;0xA8E4;0xA8E4;0xA8E4;0xA8E4;0xA8E4;0xA8E4;0xA8E4;0xA8E4;0xA8E4;0xA8E4;0xA8E4;0xA8E4;0xA8E4;0xA8E4;0xA8E4;0xA8E4;0x34F;0xA8C4;0xA8E4;0xA8E4;0xA8E4;0xA8E4;0x5A]);
([0x41;0xA8E1;0x324;0xA8C4;0xA8E4;0xA8E4;0xA8E4;0xA8E4;0xA8E4;0xA8E1;0x324;0xA8C4;0xA8E4;0xA8E4;0xA8E4;0xA8C4;0xA8E4;0xA8E4;0xA8C4;0xA8E1;0x324;0xA8C4;0xA8E4;0xA8E4;0xA8E4;0xA8E4;0xA8E1;0x32E;0xA8E4;0xA8E1;0x324;0xA8C4;0xA924;0xAC24;0x5A],[0x41;0xA8C4;0xA8C4;0xA8C4;0xA8C4;0xA8C4;0x324;0x324;0x324;0x32E;0x324;0xA8E1;0xA8E4;0xA8E4;0xA8E4;0xA8E4;0xA8E4;0xA8E1;0xA8E4;0xA8E4;0xA8E4;0xA8E4;0xA8E4;0xA8E1;0xA8E4;0xA8E4;0xA8E4;0xA8E4;0xA8E1;0xA8E4;0xA8E1;0x34F;0xA8C4;0xA924;0xAC24;0x5A]);
([0x41;0xA8E1;0x324;0xA8C4;0xA8E4;0xA8E4;0xA8E4;0xA8E4;0xA8E1;0x32E;0xA8E4;0xA8E1;0x324;0xA8C4;0xA8E4;0xA8E4;0xA8E4;0xA8C4;0xA8E4;0xA8E4;0xA8C4;0xA8E1;0x324;0xA8C4;0xA8E4;0xA8E4;0xA8E4;0xA8E4;0xA8E1;0x32E;0xA8E4;0xA8E1;0x324;0xA8C4;0xA924;0xAC24;0x5A],[0x41;0xA8C4;0xA8C4;0xA8C4;0xA8C4;0xA8C4;0x324;0x32E;0x324;0x324;0x32E;0xA8E1;0xA8E4;0xA8E4;0xA8E4;0xA8E4;0xA8E1;0xA8E4;0xA8E1;0xA8E4;0xA8E4;0xA8E4;0xA8E4;0xA8E4;0xA8E1;0xA8E4;0xA8E4;0xA8E4;0xA8E4;0xA8E1;0xA8E4;0x34F;0xA8C4;0x324;0xA8E1;0xA924;0xAC24;0x5A]);
([0x327;0x68;0x65;0x6C;0x6C;0x6F],[0x34F;0x327;0x68;0x65;0x6C;0x6C;0x6F]);
([0x68;0x65;0x6C;0x6C;0x6F;0x327;0x77;0x6F;0x72;0x6C;0x64],[0x68;0x65;0x6C;0x6C;0x6F;0x327;0x77;0x6F;0x72;0x6C;0x64]);
([0x200D;0x68;0x65;0x6C;0x6C;0x6F],[0x34F;0x200D;0x68;0x65;0x6C;0x6C;0x6F]);
([0x68;0x65;0x6C;0x6C;0x6F;0x200D;0x77;0x6F;0x72;0x6C;0x64],[0x68;0x65;0x6C;0x6C;0x6F;0x200D;0x77;0x6F;0x72;0x6C;0x64]);
([0x903;0x68;0x65;0x6C;0x6C;0x6F],[0x34F;0x903;0x68;0x65;0x6C;0x6C;0x6F]);
([0x68;0x65;0x6C;0x6C;0x6F;0x903;0x77;0x6F;0x72;0x6C;0x64],[0x68;0x65;0x6C;0x6C;0x6F;0x903;0x77;0x6F;0x72;0x6C;0x64]);
([0x9BE;0x68;0x65;0x6C;0x6C;0x6F],[0x34F;0x9BE;0x68;0x65;0x6C;0x6C;0x6F]);
([0x68;0x65;0x6C;0x6C;0x6F;0x9BE;0x77;0x6F;0x72;0x6C;0x64],[0x68;0x65;0x6C;0x6C;0x6F;0x9BE;0x77;0x6F;0x72;0x6C;0x64]);
([0x68;0x65;0x6C;0x6C;0x6F;0x200D],[0x68;0x65;0x6C;0x6C;0x6F;0x200D;0x34F]);
([0x68;0x65;0x6C;0x6C;0x6F;0x200D;0x77;0x6F;0x72;0x6C;0x64],[0x68;0x65;0x6C;0x6C;0x6F;0x200D;0x77;0x6F;0x72;0x6C;0x64]);
([0x68;0x65;0x6C;0x6C;0x6F;0x110BD],[0x68;0x65;0x6C;0x6C;0x6F;0x110BD;0x34F]);
([0x68;0x65;0x6C;0x6C;0x6F;0x110BD;0x77;0x6F;0x72;0x6C;0x64],[0x68;0x65;0x6C;0x6C;0x6F;0x110BD;0x77;0x6F;0x72;0x6C;0x64]);
([0x9E4],[0xFFFD]);
([0x9E5],[0xFFFD]);
([0xA64],[0xFFFD]);
([0xA65],[0xFFFD]);
([0xAE4],[0xFFFD]);
([0xAE5],[0xFFFD]);
([0xB64],[0xFFFD]);
([0xB65],[0xFFFD]);
([0xBE4],[0xFFFD]);
([0xBE5],[0xFFFD]);
([0xC64],[0xFFFD]);
([0xC65],[0xFFFD]);
([0xCE4],[0xFFFD]);
([0xCE5],[0xFFFD]);
([0xD64],[0xFFFD]);
([0xD65],[0xFFFD]);
([0x2072],[0xFFFD]);
([0x2073],[0xFFFD]);
([0x2126],[0x3A9]);
([0x212A],[0x4B]);
([0x212B],[0xC5]);
([0x2329],[0xFFFD]);
([0x232A],[0xFFFD]);
([0xFB00],[0x66;0x66]);
([0xFB01],[0x66;0x69]);
([0xFB02],[0x66;0x6C]);
([0xFB03],[0x66;0x66;0x69]);
([0xFB04],[0x66;0x66;0x6C]);
([0xFB05],[0x17F;0x74]);
([0xFB06],[0x73;0x74]);
([0x1D455],[0xFFFD]);
([0x1D49D],[0xFFFD]);
([0x1D4A0],[0xFFFD]);
([0x1D4A1],[0xFFFD]);
([0x1D4A3],[0xFFFD]);
([0x1D4A4],[0xFFFD]);
([0x1D4A7],[0xFFFD]);
([0x1D4A8],[0xFFFD]);
([0x1D4AD],[0xFFFD]);
([0x1D4BA],[0xFFFD]);
([0x1D4BC],[0xFFFD]);
([0x1D4C4],[0xFFFD]);
([0x1D506],[0xFFFD]);
([0x1D50B],[0xFFFD]);
([0x1D50C],[0xFFFD]);
([0x1D515],[0xFFFD]);
([0x1D51D],[0xFFFD]);
([0x1D53A],[0xFFFD]);
([0x1D53F],[0xFFFD]);
([0x1D545],[0xFFFD]);
([0x1D547],[0xFFFD]);
([0x1D548],[0xFFFD]);
([0x1D549],[0xFFFD]);
([0x1D551],[0xFFFD]);
([0xD;0xA],[0xA]);
([0xD],[0xA]);
([0xD;0xD],[0xA;0xA]);
([0xC],[0x20]);
([0x1B;0x5B],[]);
([0x1B;0x5B;0x41],[]);
([0x1B;0x5B;0x41;0x42],[0x42]);
([0x1B;0x5B;0x2B],[]);
([0x1B;0x5B;0x2B;0x41],[]);
([0x1B;0x5B;0x2B;0x41;0x42],[0x42]);
([0x1B;0x5B;0x2B;0x2B],[]);
([0x1B;0x5B;0x2B;0x2B;0x41],[]);
([0x1B;0x5B;0x2B;0x2B;0x41;0x42],[0x42]);
([0x1B;0x5B;0x18;0x41],[0x41]);
([0x1B;0x5B;0x1B;0x41;0x42],[0x42]);
([0x1B;0x5D;7],[]);
([0x1B;0x5D;0x18],[]);
([0x1B;0x5D;0x41;7],[]);
([0x1B;0x5D;0x41;0x18],[]);
([0x1B;0x5D;0x41;0x1B;0x5B;0x42;0x43],[0x43]);
([0x1B;0x5D;0x41;0x1B;0x5D;0x43;0x44;7;0x45],[0x45]);
([0x1B;0x5D;0x41;0xA;9;0x42;0x104C;7],[]);
([0x1B;0x5D;0x41;0xA;9;0x42;0x104C;0x18],[]);
([0x1B;0x5D;0x18],[]);
([0x1B;0x5D;0x41;0x18],[]);
([0x1B;0x5D;0x41;0xA;9;0x42;0x104C;0x18],[]);
([0x1B;0x41],[]);
([0x1B;0x18],[]);
([0x1B;0x1B;0x41],[]);
([0x1B;0x41;0xA],[0xA]);
([0x1B;9],[9]);
([0x1B;0xA],[0xA]);
([0x1B;0x5B;0x5B],[]);
([0x1B;0x5B;0x5B;0x41],[]);
([0x1B;0x5B;0x5B;0],[]);
([0x1B;0x5B;0x5B;0x7F],[]);
([0x1B;0x5B;0x5B;0xA],[0xA]);
([0x1B;0x5B;0x5B;0x41;0xA],[0xA]);
([0x1B;0x5B;0x5B;0x18],[]);
([0x1B;0x5B;0x5B;7],[]);
([0x1B;0x5B;0x5B;0x1B;0x41],[0x41]);
([0x1B],[]);
([0x1B;0xA],[0xA]);
([0x7F],[0xFFFD]);
([0x85],[0x20]);
([0x80],[0xFFFD]);
([0x81],[0xFFFD]);
([0x82],[0xFFFD]);
([0x83],[0xFFFD]);
([0x84],[0xFFFD]);
([0x86],[0xFFFD]);
([0x87],[0xFFFD]);
([0x88],[0xFFFD]);
([0x89],[0xFFFD]);
([0x8A],[0xFFFD]);
([0x8B],[0xFFFD]);
([0x8C],[0xFFFD]);
([0x8D],[0xFFFD]);
([0x8E],[0xFFFD]);
([0x8F],[0xFFFD]);
([0x90],[0xFFFD]);
([0x91],[0xFFFD]);
([0x92],[0xFFFD]);
([0x93],[0xFFFD]);
([0x94],[0xFFFD]);
([0x95],[0xFFFD]);
([0x96],[0xFFFD]);
([0x97],[0xFFFD]);
([0x98],[0xFFFD]);
([0x99],[0xFFFD]);
([0x9A],[0xFFFD]);
([0x9B],[0xFFFD]);
([0x9C],[0xFFFD]);
([0x9D],[0xFFFD]);
([0x9E],[0xFFFD]);
([0x9F],[0xFFFD]);
([0x149],[0x2BC;0x6E]);
([0x673],[0x627;0x65F]);
([0xF77],[0x34F;0xFB2;0xF71;0xF80]);
([0x41;0xF77],[0x41;0xFB2;0xF71;0xF80]);
([0xF79],[0x34F;0xFB3;0xF71;0xF80]);
([0x41;0xF79],[0x41;0xFB3;0xF71;0xF80]);
([0x17A3],[0x17A2]);
([0x17A4],[0x17A2;0x17B6]);
([0x17B4],[0xFFFD]);
([0x17B5],[0xFFFD]);
([0x17D8],[0xFFFD]);
([0x2028],[0x20]);
([0x2029],[0x20]);
([0x202A],[0xFFFD]);
([0x202B],[0xFFFD]);
([0x202C],[0xFFFD]);
([0x202D],[0xFFFD]);
([0x202E],[0xFFFD]);
([0x2066],[0xFFFD]);
([0x2067],[0xFFFD]);
([0x2068],[0xFFFD]);
([0x2069],[0xFFFD]);
([0x206A],[0xFFFD]);
([0x206B],[0xFFFD]);
([0x206B],[0xFFFD]);
([0x206C],[0xFFFD]);
([0x206D],[0xFFFD]);
([0x206E],[0xFFFD]);
([0x206F],[0xFFFD]);
([0x2DF5],[0x34F;0x2DED;0x2DEE]);
([0x41;0x2DF5],[0x41;0x2DED;0x2DEE]);
([0x111C4],[0x1118F;0x11180]);
([0xFDD0],[0xFFFD]);
([0xFDD1],[0xFFFD]);
([0xFDD2],[0xFFFD]);
([0xFDD3],[0xFFFD]);
([0xFDD4],[0xFFFD]);
([0xFDD5],[0xFFFD]);
([0xFDD6],[0xFFFD]);
([0xFDD7],[0xFFFD]);
([0xFDD8],[0xFFFD]);
([0xFDD9],[0xFFFD]);
([0xFDDA],[0xFFFD]);
([0xFDDB],[0xFFFD]);
([0xFDDC],[0xFFFD]);
([0xFDDD],[0xFFFD]);
([0xFDDE],[0xFFFD]);
([0xFDDF],[0xFFFD]);
([0xFDE0],[0xFFFD]);
([0xFDE1],[0xFFFD]);
([0xFDE2],[0xFFFD]);
([0xFDE3],[0xFFFD]);
([0xFDE4],[0xFFFD]);
([0xFDE5],[0xFFFD]);
([0xFDE6],[0xFFFD]);
([0xFDE7],[0xFFFD]);
([0xFDE8],[0xFFFD]);
([0xFDE9],[0xFFFD]);
([0xFDEA],[0xFFFD]);
([0xFDEB],[0xFFFD]);
([0xFDEC],[0xFFFD]);
([0xFDED],[0xFFFD]);
([0xFDEE],[0xFFFD]);
([0xFDEF],[0xFFFD]);
([0xFEFF],[0x2060]);
([0x41;0xFEFF],[0x41;0x2060]);
([0xFFF9],[0xFFFD]);
([0xFFFA],[0xFFFD]);
([0xFFFB],[0xFFFD]);
([0xFFFC],[0xFFFD]);
([0xFFFD],[0xFFFD]);
([0xFFFE],[0xFFFD]);
([0xFFFF],[0xFFFD]);
([0x1FFFE],[0xFFFD]);
([0x1FFFF],[0xFFFD]);
([0x2FFFE],[0xFFFD]);
([0x2FFFF],[0xFFFD]);
([0x3FFFE],[0xFFFD]);
([0x3FFFF],[0xFFFD]);
([0x4FFFE],[0xFFFD]);
([0x4FFFF],[0xFFFD]);
([0x5FFFE],[0xFFFD]);
([0x5FFFF],[0xFFFD]);
([0x6FFFE],[0xFFFD]);
([0x6FFFF],[0xFFFD]);
([0x7FFFE],[0xFFFD]);
([0x7FFFF],[0xFFFD]);
([0x8FFFE],[0xFFFD]);
([0x8FFFF],[0xFFFD]);
([0x9FFFE],[0xFFFD]);
([0x9FFFF],[0xFFFD]);
([0xAFFFE],[0xFFFD]);
([0xAFFFF],[0xFFFD]);
([0xBFFFE],[0xFFFD]);
([0xBFFFF],[0xFFFD]);
([0xCFFFE],[0xFFFD]);
([0xCFFFF],[0xFFFD]);
([0xDFFFE],[0xFFFD]);
([0xDFFFF],[0xFFFD]);
([0xEFFFE],[0xFFFD]);
([0xEFFFF],[0xFFFD]);
([0xFFFFE],[0xFFFD]);
([0xFFFFF],[0xFFFD]);
([0x10FFFE],[0xFFFD]);
([0x10FFFF],[0xFFFD])].

(** the CJK compatibility ideographs of the same file *)
Definition t_cjk : list (list N * list N) := [
([0x2F80C],[0x349E;0xFE00]);
([0x2F813],[0x34B9;0xFE00]);
([0x2F9CA],[0x34BB;0xFE00]);
([0x2F81F],[0x34DF;0xFE00]);
([0x2F824],[0x3515;0xFE00]);
([0x2F867],[0x36EE;0xFE00]);
([0x2F868],[0x36FC;0xFE00]);
([0x2F876],[0x3781;0xFE00]);
([0x2F883],[0x382F;0xFE00]);
([0x2F888],[0x3862;0xFE00]);
([0x2F88A],[0x387C;0xFE00]);
([0x2F896],[0x38C7;0xFE00]);
([0x2F89B],[0x38E3;0xFE00]);
([0x2F8A2],[0x391C;0xFE00]);
([0x2F8A1],[0x393A;0xFE00]);
([0x2F8C2],[0x3A2E;0xFE00]);
([0x2F8C7],[0x3A6C;0xFE00]);
([0x2F8D1],[0x3AE4;0xFE00]);
([0x2F8D0],[0x3B08;0xFE00]);
([0x2F8CE],[0x3B19;0xFE00]);
([0x2F8DE],[0x3B49;0xFE00]);
([0xFAD2],[0x3B9D;0xFE00]);
([0x2F8E7],[0x3B9D;0xFE01]);
([0x2F8EE],[0x3C18;0xFE00]);
([0x2F8F2],[0x3C4E;0xFE00]);
([0x2F90A],[0x3D33;0xFE00]);
([0x2F916],[0x3D96;0xFE00]);
([0x2F92A],[0x3EAC;0xFE00]);
([0x2F92C],[0x3EB8;0xFE00]);
([0x2F92D],[0x3EB8;0xFE01]);
([0x2F933],[0x3F1B;0xFE00]);
([0x2F93E],[0x3FFC;0xFE00]);
([0x2F93F],[0x4008;0xFE00]);
([0xFAD3],[0x4018;0xFE00]);
([0xFAD4],[0x4039;0xFE00]);
([0x2F949],[0x4039;0xFE01]);
([0x2F94B],[0x4046;0xFE00]);
([0x2F94C],[0x4096;0xFE00]);
([0x2F951],[0x40E3;0xFE00]);
([0x2F958],[0x412F;0xFE00]);
([0x2F960],[0x4202;0xFE00]);
([0x2F964],[0x4227;0xFE00]);
([0x2F967],[0x42A0;0xFE00]);
([0x2F96D],[0x4301;0xFE00]);
([0x2F971],[0x4334;0xFE00]);
([0x2F974],[0x4359;0xFE00]);
([0x2F981],[0x43D5;0xFE00]);
([0x2F8D7],[0x43D9;0xFE00]);
([0x2F984],[0x440B;0xFE00]);
([0x2F98E],[0x446B;0xFE00]);
([0x2F9A7],[0x452B;0xFE00]);
([0x2F9AE],[0x455D;0xFE00]);
([0x2F9AF],[0x4561;0xFE00]);
([0x2F9B2],[0x456B;0xFE00]);
([0x2F9BF],[0x45D7;0xFE00]);
([0x2F9C2],[0x45F9;0xFE00]);
([0x2F9C8],[0x4635;0xFE00]);
([0x2F9CD],[0x46BE;0xFE00]);
([0x2F9CE],[0x46C7;0xFE00]);
([0x2F9EF],[0x4995;0xFE00]);
([0x2F9F2],[0x49E6;0xFE00]);
([0x2F9F8],[0x4A6E;0xFE00]);
([0x2F9F9],[0x4A76;0xFE00]);
([0x2F9FC],[0x4AB2;0xFE00]);
([0x2FA03],[0x4B33;0xFE00]);
([0x2FA08],[0x4BCE;0xFE00]);
([0x2FA0D],[0x4CCE;0xFE00]);
([0x2FA0E],[0x4CED;0xFE00]);
([0x2FA11],[0x4CF8;0xFE00]);
([0x2FA16],[0x4D56;0xFE00]);
([0xF967],[0x4E0D;0xFE00]);
([0xFA70],[0x4E26;0xFE00]);
([0xF905],[0x4E32;0xFE00]);
([0x2F801],[0x4E38;0xFE00]);
([0xF95E],[0x4E39;0xFE00]);
([0x2F800],[0x4E3D;0xFE00]);
([0x2F802],[0x4E41;0xFE00]);
([0xF91B],[0x4E82;0xFE00]);
([0xF9BA],[0x4E86;0xFE00]);
([0xF977],[0x4EAE;0xFE00]);
([0xF9FD],[0x4EC0;0xFE00]);
([0x2F819],[0x4ECC;0xFE00]);
([0xF9A8],[0x4EE4;0xFE00]);
([0x2F804],[0x4F60;0xFE00]);
([0xFA73],[0x4F80;0xFE00]);
([0xF92D],[0x4F86;0xFE00]);
([0xF9B5],[0x4F8B;0xFE00]);
([0xFA30],[0x4FAE;0xFE00]);
([0x2F805],[0x4FAE;0xFE01]);
([0x2F806],[0x4FBB;0xFE00]);
([0xF965],[0x4FBF;0xFE00]);
([0x2F807],[0x5002;0xFE00]);
([0xF9D4],[0x502B;0xFE00]);
([0x2F808],[0x507A;0xFE00]);
([0x2F809],[0x5099;0xFE00]);
([0x2F80B],[0x50CF;0xFE00]);
([0xF9BB],[0x50DA;0xFE00]);
([0xFA31],[0x50E7;0xFE00]);
([0x2F80A],[0x50E7;0xFE01]);
([0xFA0C],[0x5140;0xFE00]);
([0xFA74],[0x5145;0xFE00]);
([0xFA32],[0x514D;0xFE00]);
([0x2F80E],[0x514D;0xFE01]);
([0x2F80F],[0x5154;0xFE00]);
([0x2F810],[0x5164;0xFE00]);
([0x2F814],[0x5167;0xFE00]);
([0xFA72],[0x5168;0xFE00]);
([0xF978],[0x5169;0xFE00]);
([0xF9D1],[0x516D;0xFE00]);
([0x2F811],[0x5177;0xFE00]);
([0xFA75],[0x5180;0xFE00]);
([0x2F815],[0x518D;0xFE00]);
([0x2F8D2],[0x5192;0xFE00]);
([0x2F8D3],[0x5195;0xFE00]);
([0x2F817],[0x5197;0xFE00]);
([0x2F818],[0x51A4;0xFE00]);
([0x2F81A],[0x51AC;0xFE00]);
([0xFA71],[0x51B5;0xFE00]);
([0x2F81B],[0x51B5;0xFE01]);
([0xF92E],[0x51B7;0xFE00]);
([0xF979],[0x51C9;0xFE00]);
([0xF955],[0x51CC;0xFE00]);
([0xF954],[0x51DC;0xFE00]);
([0xFA15],[0x51DE;0xFE00]);
([0x2F81D],[0x51F5;0xFE00]);
([0x2F81E],[0x5203;0xFE00]);
([0xFA00],[0x5207;0xFE00]);
([0x2F850],[0x5207;0xFE01]);
([0xF99C],[0x5217;0xFE00]);
([0xF9DD],[0x5229;0xFE00]);
([0xF9FF],[0x523A;0xFE00]);
([0x2F820],[0x523B;0xFE00]);
([0x2F821],[0x5246;0xFE00]);
([0x2F822],[0x5272;0xFE00]);
([0x2F823],[0x5277;0xFE00]);
([0xF9C7],[0x5289;0xFE00]);
([0xF98A],[0x529B;0xFE00]);
([0xF99D],[0x52A3;0xFE00]);
([0x2F992],[0x52B3;0xFE00]);
([0xFA76],[0x52C7;0xFE00]);
([0x2F825],[0x52C7;0xFE01]);
([0xFA33],[0x52C9;0xFE00]);
([0x2F826],[0x52C9;0xFE01]);
([0xF952],[0x52D2;0xFE00]);
([0xF92F],[0x52DE;0xFE00]);
([0xFA34],[0x52E4;0xFE00]);
([0x2F827],[0x52E4;0xFE01]);
([0xF97F],[0x52F5;0xFE00]);
([0xFA77],[0x52FA;0xFE00]);
([0x2F828],[0x52FA;0xFE01]);
([0x2F829],[0x5305;0xFE00]);
([0x2F82A],[0x5306;0xFE00]);
([0xF963],[0x5317;0xFE00]);
([0x2F82B],[0x5317;0xFE01]);
([0xF9EB],[0x533F;0xFE00]);
([0x2F82C],[0x5349;0xFE00]);
([0xFA35],[0x5351;0xFE00]);
([0x2F82D],[0x5351;0xFE01]);
([0x2F82E],[0x535A;0xFE00]);
([0x2F82F],[0x5373;0xFE00]);
([0xF91C],[0x5375;0xFE00]);
([0x2F830],[0x537D;0xFE00]);
([0x2F831],[0x537F;0xFE00]);
([0x2F832],[0x537F;0xFE01]);
([0x2F833],[0x537F;0xFE02]);
([0xF96B],[0x53C3;0xFE00]);
([0x2F836],[0x53CA;0xFE00]);
([0x2F837],[0x53DF;0xFE00]);
([0xF906],[0x53E5;0xFE00]);
([0x2F839],[0x53EB;0xFE00]);
([0x2F83A],[0x53F1;0xFE00]);
([0x2F83B],[0x5406;0xFE00]);
([0xF9DE],[0x540F;0xFE00]);
([0xF9ED],[0x541D;0xFE00]);
([0x2F83D],[0x5438;0xFE00]);
([0xF980],[0x5442;0xFE00]);
([0x2F83E],[0x5448;0xFE00]);
([0x2F83F],[0x5468;0xFE00]);
([0x2F83C],[0x549E;0xFE00]);
([0x2F840],[0x54A2;0xFE00]);
([0xF99E],[0x54BD;0xFE00]);
([0x2F841],[0x54F6;0xFE00]);
([0x2F842],[0x5510;0xFE00]);
([0x2F843],[0x5553;0xFE00]);
([0xFA79],[0x5555;0xFE00]);
([0x2F844],[0x5563;0xFE00]);
([0x2F845],[0x5584;0xFE00]);
([0x2F846],[0x5584;0xFE01]);
([0xF90B],[0x5587;0xFE00]);
([0xFA7A],[0x5599;0xFE00]);
([0x2F847],[0x5599;0xFE01]);
([0xFA36],[0x559D;0xFE00]);
([0xFA78],[0x559D;0xFE01]);
([0x2F848],[0x55AB;0xFE00]);
([0x2F849],[0x55B3;0xFE00]);
([0xFA0D],[0x55C0;0xFE00]);
([0x2F84A],[0x55C2;0xFE00]);
([0xFA7B],[0x55E2;0xFE00]);
([0xFA37],[0x5606;0xFE00]);
([0x2F84C],[0x5606;0xFE01]);
([0x2F84E],[0x5651;0xFE00]);
([0xFA38],[0x5668;0xFE00]);
([0x2F84F],[0x5674;0xFE00]);
([0xF9A9],[0x56F9;0xFE00]);
([0x2F84B],[0x5716;0xFE00]);
([0x2F84D],[0x5717;0xFE00]);
([0x2F855],[0x578B;0xFE00]);
([0x2F852],[0x57CE;0xFE00]);
([0x2F853],[0x57F4;0xFE00]);
([0x2F854],[0x580D;0xFE00]);
([0x2F857],[0x5831;0xFE00]);
([0x2F856],[0x5832;0xFE00]);
([0xFA39],[0x5840;0xFE00]);
([0xFA10],[0x585A;0xFE00]);
([0xFA7C],[0x585A;0xFE01]);
([0xF96C],[0x585E;0xFE00]);
([0xFA3A],[0x58A8;0xFE00]);
([0x2F858],[0x58AC;0xFE00]);
([0xFA7D],[0x58B3;0xFE00]);
([0xF94A],[0x58D8;0xFE00]);
([0xF942],[0x58DF;0xFE00]);
([0x2F851],[0x58EE;0xFE00]);
([0x2F85A],[0x58F2;0xFE00]);
([0x2F85B],[0x58F7;0xFE00]);
([0x2F85C],[0x5906;0xFE00]);
([0x2F85D],[0x591A;0xFE00]);
([0x2F85E],[0x5922;0xFE00]);
([0xFA7E],[0x5944;0xFE00]);
([0xF90C],[0x5948;0xFE00]);
([0xF909],[0x5951;0xFE00]);
([0xFA7F],[0x5954;0xFE00]);
([0x2F85F],[0x5962;0xFE00]);
([0xF981],[0x5973;0xFE00]);
([0x2F865],[0x59D8;0xFE00]);
([0x2F862],[0x59EC;0xFE00]);
([0x2F863],[0x5A1B;0xFE00]);
([0x2F864],[0x5A27;0xFE00]);
([0xFA80],[0x5A62;0xFE00]);
([0x2F866],[0x5A66;0xFE00]);
([0x2F986],[0x5AB5;0xFE00]);
([0x2F869],[0x5B08;0xFE00]);
([0xFA81],[0x5B28;0xFE00]);
([0x2F86A],[0x5B3E;0xFE00]);
([0x2F86B],[0x5B3E;0xFE01]);
([0xFA04],[0x5B85;0xFE00]);
([0x2F86D],[0x5BC3;0xFE00]);
([0x2F86E],[0x5BD8;0xFE00]);
([0xF95F],[0x5BE7;0xFE00]);
([0xF9AA],[0x5BE7;0xFE01]);
([0x2F86F],[0x5BE7;0xFE02]);
([0xF9BC],[0x5BEE;0xFE00]);
([0x2F870],[0x5BF3;0xFE00]);
([0x2F872],[0x5BFF;0xFE00]);
([0x2F873],[0x5C06;0xFE00]);
([0x2F875],[0x5C22;0xFE00]);
([0xF9BD],[0x5C3F;0xFE00]);
([0x2F877],[0x5C60;0xFE00]);
([0xF94B],[0x5C62;0xFE00]);
([0xFA3B],[0x5C64;0xFE00]);
([0xF9DF],[0x5C65;0xFE00]);
([0xFA3C],[0x5C6E;0xFE00]);
([0x2F878],[0x5C6E;0xFE01]);
([0x2F87A],[0x5C8D;0xFE00]);
([0x2F879],[0x5CC0;0xFE00]);
([0xF9D5],[0x5D19;0xFE00]);
([0x2F87C],[0x5D43;0xFE00]);
([0xF921],[0x5D50;0xFE00]);
([0x2F87F],[0x5D6B;0xFE00]);
([0x2F87E],[0x5D6E;0xFE00]);
([0x2F880],[0x5D7C;0xFE00]);
([0x2F9F4],[0x5DB2;0xFE00]);
([0xF9AB],[0x5DBA;0xFE00]);
([0x2F881],[0x5DE1;0xFE00]);
([0x2F882],[0x5DE2;0xFE00]);
([0x2F884],[0x5DFD;0xFE00]);
([0x2F885],[0x5E28;0xFE00]);
([0x2F886],[0x5E3D;0xFE00]);
([0x2F887],[0x5E69;0xFE00]);
([0xF98E],[0x5E74;0xFE00]);
([0xFA01],[0x5EA6;0xFE00]);
([0x2F88B],[0x5EB0;0xFE00]);
([0x2F88C],[0x5EB3;0xFE00]);
([0x2F88D],[0x5EB6;0xFE00]);
([0xF9A2],[0x5EC9;0xFE00]);
([0xF928],[0x5ECA;0xFE00]);
([0x2F88E],[0x5ECA;0xFE01]);
([0xFA82],[0x5ED2;0xFE00]);
([0xFA0B],[0x5ED3;0xFE00]);
([0xFA83],[0x5ED9;0xFE00]);
([0xF982],[0x5EEC;0xFE00]);
([0x2F890],[0x5EFE;0xFE00]);
([0xF943],[0x5F04;0xFE00]);
([0x2F894],[0x5F22;0xFE00]);
([0x2F895],[0x5F22;0xFE01]);
([0x2F874],[0x5F53;0xFE00]);
([0x2F899],[0x5F62;0xFE00]);
([0xFA84],[0x5F69;0xFE00]);
([0x2F89A],[0x5F6B;0xFE00]);
([0xF9D8],[0x5F8B;0xFE00]);
([0x2F89C],[0x5F9A;0xFE00]);
([0xF966],[0x5FA9;0xFE00]);
([0xFA85],[0x5FAD;0xFE00]);
([0x2F89D],[0x5FCD;0xFE00]);
([0x2F89E],[0x5FD7;0xFE00]);
([0xF9A3],[0x5FF5;0xFE00]);
([0x2F89F],[0x5FF9;0xFE00]);
([0xF960],[0x6012;0xFE00]);
([0xF9AC],[0x601C;0xFE00]);
([0xFA6B],[0x6075;0xFE00]);
([0x2F8A0],[0x6081;0xFE00]);
([0xFA3D],[0x6094;0xFE00]);
([0x2F8A3],[0x6094;0xFE01]);
([0x2F8A5],[0x60C7;0xFE00]);
([0xFA86],[0x60D8;0xFE00]);
([0xF9B9],[0x60E1;0xFE00]);
([0xFA88],[0x6108;0xFE00]);
([0xF9D9],[0x6144;0xFE00]);
([0x2F8A6],[0x6148;0xFE00]);
([0x2F8A7],[0x614C;0xFE00]);
([0x2F8A9],[0x614C;0xFE01]);
([0xFA87],[0x614E;0xFE00]);
([0x2F8A8],[0x614E;0xFE01]);
([0xFA8A],[0x6160;0xFE00]);
([0xFA3E],[0x6168;0xFE00]);
([0x2F8AA],[0x617A;0xFE00]);
([0xFA3F],[0x618E;0xFE00]);
([0xFA89],[0x618E;0xFE01]);
([0x2F8AB],[0x618E;0xFE02]);
([0xF98F],[0x6190;0xFE00]);
([0x2F8AD],[0x61A4;0xFE00]);
([0x2F8AE],[0x61AF;0xFE00]);
([0x2F8AC],[0x61B2;0xFE00]);
([0x2F8AF],[0x61DE;0xFE00]);
([0xFA40],[0x61F2;0xFE00]);
([0xFA8B],[0x61F2;0xFE01]);
([0x2F8B0],[0x61F2;0xFE02]);
([0xF90D],[0x61F6;0xFE00]);
([0x2F8B1],[0x61F6;0xFE01]);
([0xF990],[0x6200;0xFE00]);
([0x2F8B2],[0x6210;0xFE00]);
([0x2F8B3],[0x621B;0xFE00]);
([0xF9D2],[0x622E;0xFE00]);
([0xFA8C],[0x6234;0xFE00]);
([0x2F8B4],[0x625D;0xFE00]);
([0x2F8B5],[0x62B1;0xFE00]);
([0xF925],[0x62C9;0xFE00]);
([0xF95B],[0x62CF;0xFE00]);
([0xFA02],[0x62D3;0xFE00]);
([0x2F8B6],[0x62D4;0xFE00]);
([0x2F8BA],[0x62FC;0xFE00]);
([0xF973],[0x62FE;0xFE00]);
([0x2F8B9],[0x633D;0xFE00]);
([0x2F8B7],[0x6350;0xFE00]);
([0x2F8BB],[0x6368;0xFE00]);
([0xF9A4],[0x637B;0xFE00]);
([0x2F8BC],[0x6383;0xFE00]);
([0xF975],[0x63A0;0xFE00]);
([0x2F8C1],[0x63A9;0xFE00]);
([0xFA8D],[0x63C4;0xFE00]);
([0x2F8C0],[0x63C5;0xFE00]);
([0x2F8BD],[0x63E4;0xFE00]);
([0xFA8E],[0x641C;0xFE00]);
([0x2F8BF],[0x6422;0xFE00]);
([0xFA8F],[0x6452;0xFE00]);
([0x2F8C3],[0x6469;0xFE00]);
([0x2F8C6],[0x6477;0xFE00]);
([0x2F8C4],[0x647E;0xFE00]);
([0xF991],[0x649A;0xFE00]);
([0x2F8C5],[0x649D;0xFE00]);
([0xF930],[0x64C4;0xFE00]);
([0xFA41],[0x654F;0xFE00]);
([0x2F8C8],[0x654F;0xFE01]);
([0xFA90],[0x6556;0xFE00]);
([0x2F8C9],[0x656C;0xFE00]);
([0xF969],[0x6578;0xFE00]);
([0xF9BE],[0x6599;0xFE00]);
([0xF983],[0x65C5;0xFE00]);
([0xFA42],[0x65E2;0xFE00]);
([0x2F8CB],[0x65E3;0xFE00]);
([0xF9E0],[0x6613;0xFE00]);
([0x2F8CD],[0x6649;0xFE00]);
([0xFA12],[0x6674;0xFE00]);
([0xFA91],[0x6674;0xFE01]);
([0xF9C5],[0x6688;0xFE00]);
([0xFA43],[0x6691;0xFE00]);
([0x2F8CF],[0x6691;0xFE01]);
([0x2F8D5],[0x669C;0xFE00]);
([0xFA06],[0x66B4;0xFE00]);
([0xF98B],[0x66C6;0xFE00]);
([0xF901],[0x66F4;0xFE00]);
([0x2F8CC],[0x66F8;0xFE00]);
([0x2F8D4],[0x6700;0xFE00]);
([0xF929],[0x6717;0xFE00]);
([0xFA92],[0x6717;0xFE01]);
([0x2F8D8],[0x6717;0xFE02]);
([0xFA93],[0x671B;0xFE00]);
([0x2F8D9],[0x671B;0xFE01]);
([0x2F8DA],[0x6721;0xFE00]);
([0xF9E1],[0x674E;0xFE00]);
([0x2F8DC],[0x6753;0xFE00]);
([0xFA94],[0x6756;0xFE00]);
([0x2F8DB],[0x675E;0xFE00]);
([0xF9C8],[0x677B;0xFE00]);
([0x2F8E0],[0x6785;0xFE00]);
([0xF9F4],[0x6797;0xFE00]);
([0xF9C9],[0x67F3;0xFE00]);
([0x2F8DF],[0x67FA;0xFE00]);
([0xF9DA],[0x6817;0xFE00]);
([0x2F8E5],[0x681F;0xFE00]);
([0x2F8E1],[0x6852;0xFE00]);
([0xF97A],[0x6881;0xFE00]);
([0xFA44],[0x6885;0xFE00]);
([0x2F8E2],[0x6885;0xFE01]);
([0x2F8E4],[0x688E;0xFE00]);
([0xF9E2],[0x68A8;0xFE00]);
([0x2F8E6],[0x6914;0xFE00]);
([0x2F8E8],[0x6942;0xFE00]);
([0x2F8E9],[0x69A3;0xFE00]);
([0x2F8EA],[0x69EA;0xFE00]);
([0xF914],[0x6A02;0xFE00]);
([0xF95C],[0x6A02;0xFE01]);
([0xF9BF],[0x6A02;0xFE02]);
([0xF94C],[0x6A13;0xFE00]);
([0x2F8EB],[0x6AA8;0xFE00]);
([0xF931],[0x6AD3;0xFE00]);
([0x2F8ED],[0x6ADB;0xFE00]);
([0xF91D],[0x6B04;0xFE00]);
([0x2F8EF],[0x6B21;0xFE00]);
([0x2F8F1],[0x6B54;0xFE00]);
([0x2F8F3],[0x6B72;0xFE00]);
([0xF98C],[0x6B77;0xFE00]);
([0xFA95],[0x6B79;0xFE00]);
([0x2F8F4],[0x6B9F;0xFE00]);
([0xF9A5],[0x6BAE;0xFE00]);
([0xF970],[0x6BBA;0xFE00]);
([0xFA96],[0x6BBA;0xFE01]);
([0x2F8F5],[0x6BBA;0xFE02]);
([0x2F8F6],[0x6BBB;0xFE00]);
([0x2F8FA],[0x6C4E;0xFE00]);
([0x2F8FE],[0x6C67;0xFE00]);
([0xF972],[0x6C88;0xFE00]);
([0x2F8FC],[0x6CBF;0xFE00]);
([0xF968],[0x6CCC;0xFE00]);
([0x2F8FD],[0x6CCD;0xFE00]);
([0xF9E3],[0x6CE5;0xFE00]);
([0x2F8FF],[0x6D16;0xFE00]);
([0xF915],[0x6D1B;0xFE00]);
([0xFA05],[0x6D1E;0xFE00]);
([0x2F907],[0x6D34;0xFE00]);
([0x2F900],[0x6D3E;0xFE00]);
([0xF9CA],[0x6D41;0xFE00]);
([0xFA97],[0x6D41;0xFE01]);
([0x2F902],[0x6D41;0xFE02]);
([0x2F903],[0x6D69;0xFE00]);
([0xF92A],[0x6D6A;0xFE00]);
([0xFA45],[0x6D77;0xFE00]);
([0x2F901],[0x6D77;0xFE01]);
([0x2F904],[0x6D78;0xFE00]);
([0x2F905],[0x6D85;0xFE00]);
([0xF9F5],[0x6DCB;0xFE00]);
([0xF94D],[0x6DDA;0xFE00]);
([0xF9D6],[0x6DEA;0xFE00]);
([0x2F90E],[0x6DF9;0xFE00]);
([0xFA46],[0x6E1A;0xFE00]);
([0x2F908],[0x6E2F;0xFE00]);
([0x2F909],[0x6E6E;0xFE00]);
([0xF9CB],[0x6E9C;0xFE00]);
([0xF9EC],[0x6EBA;0xFE00]);
([0x2F90C],[0x6EC7;0xFE00]);
([0xFA99],[0x6ECB;0xFE00]);
([0x2F90B],[0x6ECB;0xFE01]);
([0xF904],[0x6ED1;0xFE00]);
([0xFA98],[0x6EDB;0xFE00]);
([0xF94E],[0x6F0F;0xFE00]);
([0xFA47],[0x6F22;0xFE00]);
([0xFA9A],[0x6F22;0xFE01]);
([0xF992],[0x6F23;0xFE00]);
([0x2F90F],[0x6F6E;0xFE00]);
([0x2F912],[0x6FC6;0xFE00]);
([0xF922],[0x6FEB;0xFE00]);
([0xF984],[0x6FFE;0xFE00]);
([0x2F915],[0x701B;0xFE00]);
([0xFA9B],[0x701E;0xFE00]);
([0x2F914],[0x701E;0xFE01]);
([0x2F913],[0x7039;0xFE00]);
([0x2F917],[0x704A;0xFE00]);
([0x2F835],[0x7070;0xFE00]);
([0x2F919],[0x7077;0xFE00]);
([0x2F918],[0x707D;0xFE00]);
([0xF9FB],[0x7099;0xFE00]);
([0x2F91A],[0x70AD;0xFE00]);
([0xF99F],[0x70C8;0xFE00]);
([0xF916],[0x70D9;0xFE00]);
([0x2F91C],[0x7145;0xFE00]);
([0xF993],[0x7149;0xFE00]);
([0xFA48],[0x716E;0xFE00]);
([0xFA9C],[0x716E;0xFE01]);
([0x2F91E],[0x719C;0xFE00]);
([0xF9C0],[0x71CE;0xFE00]);
([0xF9EE],[0x71D0;0xFE00]);
([0xF932],[0x7210;0xFE00]);
([0xF91E],[0x721B;0xFE00]);
([0x2F920],[0x7228;0xFE00]);
([0xFA49],[0x722B;0xFE00]);
([0xFA9E],[0x7235;0xFE00]);
([0x2F921],[0x7235;0xFE01]);
([0x2F922],[0x7250;0xFE00]);
([0xF946],[0x7262;0xFE00]);
([0x2F924],[0x7280;0xFE00]);
([0x2F925],[0x7295;0xFE00]);
([0xFA9F],[0x72AF;0xFE00]);
([0xF9FA],[0x72C0;0xFE00]);
([0xF92B],[0x72FC;0xFE00]);
([0xFA16],[0x732A;0xFE00]);
([0xFAA0],[0x732A;0xFE01]);
([0xF9A7],[0x7375;0xFE00]);
([0x2F928],[0x737A;0xFE00]);
([0xF961],[0x7387;0xFE00]);
([0xF9DB],[0x7387;0xFE01]);
([0x2F929],[0x738B;0xFE00]);
([0x2F92B],[0x73A5;0xFE00]);
([0xF9AD],[0x73B2;0xFE00]);
([0xF917],[0x73DE;0xFE00]);
([0xF9E4],[0x7406;0xFE00]);
([0xF9CC],[0x7409;0xFE00]);
([0xFA4A],[0x7422;0xFE00]);
([0x2F92E],[0x7447;0xFE00]);
([0x2F92F],[0x745C;0xFE00]);
([0xF9AE],[0x7469;0xFE00]);
([0xFAA1],[0x7471;0xFE00]);
([0x2F930],[0x7471;0xFE01]);
([0x2F931],[0x7485;0xFE00]);
([0xF994],[0x7489;0xFE00]);
([0xF9EF],[0x7498;0xFE00]);
([0x2F932],[0x74CA;0xFE00]);
([0xFAA2],[0x7506;0xFE00]);
([0x2F934],[0x7524;0xFE00]);
([0xFAA3],[0x753B;0xFE00]);
([0x2F936],[0x753E;0xFE00]);
([0xF9CD],[0x7559;0xFE00]);
([0xF976],[0x7565;0xFE00]);
([0xF962],[0x7570;0xFE00]);
([0x2F938],[0x7570;0xFE01]);
([0xF9E5],[0x75E2;0xFE00]);
([0x2F93A],[0x7610;0xFE00]);
([0xFAA4],[0x761D;0xFE00]);
([0xFAA5],[0x761F;0xFE00]);
([0xF9C1],[0x7642;0xFE00]);
([0xF90E],[0x7669;0xFE00]);
([0xFA17],[0x76CA;0xFE00]);
([0xFAA6],[0x76CA;0xFE01]);
([0xFAA7],[0x76DB;0xFE00]);
([0xF933],[0x76E7;0xFE00]);
([0xFAA8],[0x76F4;0xFE00]);
([0x2F940],[0x76F4;0xFE01]);
([0xF96D],[0x7701;0xFE00]);
([0x2F945],[0x771E;0xFE00]);
([0x2F946],[0x771F;0xFE00]);
([0x2F947],[0x771F;0xFE01]);
([0xFAAA],[0x7740;0xFE00]);
([0xFAA9],[0x774A;0xFE00]);
([0x2F948],[0x774A;0xFE01]);
([0x2F94A],[0x778B;0xFE00]);
([0xFA9D],[0x77A7;0xFE00]);
([0x2F94E],[0x784E;0xFE00]);
([0xF9CE],[0x786B;0xFE00]);
([0xF93B],[0x788C;0xFE00]);
([0x2F94F],[0x788C;0xFE01]);
([0xFA4B],[0x7891;0xFE00]);
([0xF947],[0x78CA;0xFE00]);
([0xFAAB],[0x78CC;0xFE00]);
([0x2F950],[0x78CC;0xFE01]);
([0xF964],[0x78FB;0xFE00]);
([0xF985],[0x792A;0xFE00]);
([0xFA18],[0x793C;0xFE00]);
([0xFA4C],[0x793E;0xFE00]);
([0xFA4E],[0x7948;0xFE00]);
([0xFA4D],[0x7949;0xFE00]);
([0xFA4F],[0x7950;0xFE00]);
([0xFA50],[0x7956;0xFE00]);
([0x2F953],[0x7956;0xFE01]);
([0xFA51],[0x795D;0xFE00]);
([0xFA19],[0x795E;0xFE00]);
([0xFA1A],[0x7965;0xFE00]);
([0xF93C],[0x797F;0xFE00]);
([0xFA52],[0x798D;0xFE00]);
([0xFA53],[0x798E;0xFE00]);
([0xFA1B],[0x798F;0xFE00]);
([0x2F956],[0x798F;0xFE01]);
([0xF9B6],[0x79AE;0xFE00]);
([0xF995],[0x79CA;0xFE00]);
([0x2F957],[0x79EB;0xFE00]);
([0xF956],[0x7A1C;0xFE00]);
([0xFA54],[0x7A40;0xFE00]);
([0x2F959],[0x7A40;0xFE01]);
([0x2F95A],[0x7A4A;0xFE00]);
([0x2F95B],[0x7A4F;0xFE00]);
([0xFA55],[0x7A81;0xFE00]);
([0xFAAC],[0x7AB1;0xFE00]);
([0xF9F7],[0x7ACB;0xFE00]);
([0x2F95F],[0x7AEE;0xFE00]);
([0xF9F8],[0x7B20;0xFE00]);
([0xFA56],[0x7BC0;0xFE00]);
([0xFAAD],[0x7BC0;0xFE01]);
([0x2F962],[0x7BC6;0xFE00]);
([0x2F963],[0x7BC9;0xFE00]);
([0xF9A6],[0x7C3E;0xFE00]);
([0xF944],[0x7C60;0xFE00]);
([0xFAAE],[0x7C7B;0xFE00]);
([0xF9F9],[0x7C92;0xFE00]);
([0xFA1D],[0x7CBE;0xFE00]);
([0x2F966],[0x7CD2;0xFE00]);
([0xFA03],[0x7CD6;0xFE00]);
([0x2F969],[0x7CE3;0xFE00]);
([0xF97B],[0x7CE7;0xFE00]);
([0x2F968],[0x7CE8;0xFE00]);
([0x2F96A],[0x7D00;0xFE00]);
([0xF9CF],[0x7D10;0xFE00]);
([0xF96A],[0x7D22;0xFE00]);
([0xF94F],[0x7D2F;0xFE00]);
([0xFAAF],[0x7D5B;0xFE00]);
([0x2F96C],[0x7D63;0xFE00]);
([0xF93D],[0x7DA0;0xFE00]);
([0xF957],[0x7DBE;0xFE00]);
([0x2F96E],[0x7DC7;0xFE00]);
([0xF996],[0x7DF4;0xFE00]);
([0xFA57],[0x7DF4;0xFE01]);
([0xFAB0],[0x7DF4;0xFE02]);
([0x2F96F],[0x7E02;0xFE00]);
([0xFA58],[0x7E09;0xFE00]);
([0xF950],[0x7E37;0xFE00]);
([0xFA59],[0x7E41;0xFE00]);
([0x2F970],[0x7E45;0xFE00]);
([0xFAB1],[0x7F3E;0xFE00]);
([0xFA5A],[0x7F72;0xFE00]);
([0xF9E6],[0x7F79;0xFE00]);
([0x2F976],[0x7F7A;0xFE00]);
([0xF90F],[0x7F85;0xFE00]);
([0x2F978],[0x7F95;0xFE00]);
([0xF9AF],[0x7F9A;0xFE00]);
([0xFA1E],[0x7FBD;0xFE00]);
([0x2F979],[0x7FFA;0xFE00]);
([0xF934],[0x8001;0xFE00]);
([0xFA5B],[0x8005;0xFE00]);
([0xFAB2],[0x8005;0xFE01]);
([0x2F97A],[0x8005;0xFE02]);
([0xF9B0],[0x8046;0xFE00]);
([0x2F97D],[0x8060;0xFE00]);
([0xF997],[0x806F;0xFE00]);
([0x2F97F],[0x8070;0xFE00]);
([0xF945],[0x807E;0xFE00]);
([0xF953],[0x808B;0xFE00]);
([0x2F8D6],[0x80AD;0xFE00]);
([0x2F982],[0x80B2;0xFE00]);
([0x2F983],[0x8103;0xFE00]);
([0x2F985],[0x813E;0xFE00]);
([0xF926],[0x81D8;0xFE00]);
([0xF9F6],[0x81E8;0xFE00]);
([0xFA5C],[0x81ED;0xFE00]);
([0x2F893],[0x8201;0xFE00]);
([0x2F98B],[0x8201;0xFE01]);
([0x2F98C],[0x8204;0xFE00]);
([0xFA6D],[0x8218;0xFE00]);
([0xF97C],[0x826F;0xFE00]);
([0xFA5D],[0x8279;0xFE00]);
([0xFA5E],[0x8279;0xFE01]);
([0x2F990],[0x828B;0xFE00]);
([0x2F98F],[0x8291;0xFE00]);
([0x2F991],[0x829D;0xFE00]);
([0x2F993],[0x82B1;0xFE00]);
([0x2F994],[0x82B3;0xFE00]);
([0x2F995],[0x82BD;0xFE00]);
([0xF974],[0x82E5;0xFE00]);
([0x2F998],[0x82E5;0xFE01]);
([0x2F996],[0x82E6;0xFE00]);
([0x2F999],[0x831D;0xFE00]);
([0x2F99C],[0x8323;0xFE00]);
([0xF9FE],[0x8336;0xFE00]);
([0xFAB3],[0x8352;0xFE00]);
([0x2F9A0],[0x8353;0xFE00]);
([0x2F99A],[0x8363;0xFE00]);
([0x2F99B],[0x83AD;0xFE00]);
([0x2F99D],[0x83BD;0xFE00]);
([0xF93E],[0x83C9;0xFE00]);
([0x2F9A1],[0x83CA;0xFE00]);
([0x2F9A2],[0x83CC;0xFE00]);
([0x2F9A3],[0x83DC;0xFE00]);
([0x2F99E],[0x83E7;0xFE00]);
([0xFAB4],[0x83EF;0xFE00]);
([0xF958],[0x83F1;0xFE00]);
([0xF918],[0x843D;0xFE00]);
([0xF96E],[0x8449;0xFE00]);
([0xFA5F],[0x8457;0xFE00]);
([0x2F99F],[0x8457;0xFE01]);
([0xF999],[0x84EE;0xFE00]);
([0x2F9A8],[0x84F1;0xFE00]);
([0x2F9A9],[0x84F3;0xFE00]);
([0xF9C2],[0x84FC;0xFE00]);
([0x2F9AA],[0x8516;0xFE00]);
([0x2F9AC],[0x8564;0xFE00]);
([0xF923],[0x85CD;0xFE00]);
([0xF9F0],[0x85FA;0xFE00]);
([0xF935],[0x8606;0xFE00]);
([0xFA20],[0x8612;0xFE00]);
([0xF91F],[0x862D;0xFE00]);
([0xF910],[0x863F;0xFE00]);
([0x2F9B3],[0x8650;0xFE00]);
([0xF936],[0x865C;0xFE00]);
([0x2F9B4],[0x865C;0xFE01]);
([0x2F9B5],[0x8667;0xFE00]);
([0x2F9B6],[0x8669;0xFE00]);
([0x2F9B8],[0x8688;0xFE00]);
([0x2F9B7],[0x86A9;0xFE00]);
([0x2F9BA],[0x86E2;0xFE00]);
([0x2F9B9],[0x870E;0xFE00]);
([0x2F9BC],[0x8728;0xFE00]);
([0x2F9BD],[0x876B;0xFE00]);
([0xFAB5],[0x8779;0xFE00]);
([0x2F9BB],[0x8779;0xFE01]);
([0x2F9BE],[0x8786;0xFE00]);
([0xF911],[0x87BA;0xFE00]);
([0x2F9C0],[0x87E1;0xFE00]);
([0x2F9C1],[0x8801;0xFE00]);
([0xF927],[0x881F;0xFE00]);
([0xFA08],[0x884C;0xFE00]);
([0x2F9C3],[0x8860;0xFE00]);
([0x2F9C4],[0x8863;0xFE00]);
([0xF9A0],[0x88C2;0xFE00]);
([0xF9E7],[0x88CF;0xFE00]);
([0x2F9C6],[0x88D7;0xFE00]);
([0x2F9C7],[0x88DE;0xFE00]);
([0xF9E8],[0x88E1;0xFE00]);
([0xF912],[0x88F8;0xFE00]);
([0x2F9C9],[0x88FA;0xFE00]);
([0xFA60],[0x8910;0xFE00]);
([0xFAB6],[0x8941;0xFE00]);
([0xF924],[0x8964;0xFE00]);
([0xFAB7],[0x8986;0xFE00]);
([0xFA0A],[0x898B;0xFE00]);
([0xFA61],[0x8996;0xFE00]);
([0xFAB8],[0x8996;0xFE01]);
([0x2F9CF],[0x8AA0;0xFE00]);
([0xF96F],[0x8AAA;0xFE00]);
([0xF9A1],[0x8AAA;0xFE01]);
([0xFAB9],[0x8ABF;0xFE00]);
([0xFABB],[0x8ACB;0xFE00]);
([0xF97D],[0x8AD2;0xFE00]);
([0xF941],[0x8AD6;0xFE00]);
([0xFABE],[0x8AED;0xFE00]);
([0x2F9D0],[0x8AED;0xFE01]);
([0xFA22],[0x8AF8;0xFE00]);
([0xFABA],[0x8AF8;0xFE01]);
([0xF95D],[0x8AFE;0xFE00]);
([0xFABD],[0x8AFE;0xFE01]);
([0xFA62],[0x8B01;0xFE00]);
([0xFABC],[0x8B01;0xFE01]);
([0xFA63],[0x8B39;0xFE00]);
([0xFABF],[0x8B39;0xFE01]);
([0xF9FC],[0x8B58;0xFE00]);
([0xF95A],[0x8B80;0xFE00]);
([0xFAC0],[0x8B8A;0xFE00]);
([0x2F9D1],[0x8B8A;0xFE01]);
([0xF900],[0x8C48;0xFE00]);
([0x2F9D2],[0x8C55;0xFE00]);
([0x2F9D4],[0x8CAB;0xFE00]);
([0x2F9D5],[0x8CC1;0xFE00]);
([0xF948],[0x8CC2;0xFE00]);
([0xF903],[0x8CC8;0xFE00]);
([0xFA64],[0x8CD3;0xFE00]);
([0xFA65],[0x8D08;0xFE00]);
([0xFAC1],[0x8D08;0xFE01]);
([0x2F9D6],[0x8D1B;0xFE00]);
([0x2F9D7],[0x8D77;0xFE00]);
([0x2F9DB],[0x8DBC;0xFE00]);
([0x2F9DA],[0x8DCB;0xFE00]);
([0xF937],[0x8DEF;0xFE00]);
([0x2F9DC],[0x8DF0;0xFE00]);
([0xF902],[0x8ECA;0xFE00]);
([0x2F9DE],[0x8ED4;0xFE00]);
([0xF998],[0x8F26;0xFE00]);
([0xF9D7],[0x8F2A;0xFE00]);
([0xFAC2],[0x8F38;0xFE00]);
([0x2F9DF],[0x8F38;0xFE01]);
([0xFA07],[0x8F3B;0xFE00]);
([0xF98D],[0x8F62;0xFE00]);
([0x2F98D],[0x8F9E;0xFE00]);
([0xF971],[0x8FB0;0xFE00]);
([0xFA66],[0x8FB6;0xFE00]);
([0xF99A],[0x9023;0xFE00]);
([0xFA25],[0x9038;0xFE00]);
([0xFA67],[0x9038;0xFE01]);
([0xFAC3],[0x9072;0xFE00]);
([0xF9C3],[0x907C;0xFE00]);
([0xF913],[0x908F;0xFE00]);
([0x2F9E2],[0x9094;0xFE00]);
([0xF92C],[0x90CE;0xFE00]);
([0xFA2E],[0x90DE;0xFE00]);
([0x2F9E3],[0x90F1;0xFE00]);
([0xFA26],[0x90FD;0xFE00]);
([0x2F9E4],[0x9111;0xFE00]);
([0x2F9E6],[0x911B;0xFE00]);
([0xF919],[0x916A;0xFE00]);
([0xFAC4],[0x9199;0xFE00]);
([0xF9B7],[0x91B4;0xFE00]);
([0xF9E9],[0x91CC;0xFE00]);
([0xF97E],[0x91CF;0xFE00]);
([0xF90A],[0x91D1;0xFE00]);
([0xF9B1],[0x9234;0xFE00]);
([0x2F9E7],[0x9238;0xFE00]);
([0xFAC5],[0x9276;0xFE00]);
([0x2F9EA],[0x927C;0xFE00]);
([0x2F9E8],[0x92D7;0xFE00]);
([0x2F9E9],[0x92D8;0xFE00]);
([0xF93F],[0x9304;0xFE00]);
([0xF99B],[0x934A;0xFE00]);
([0x2F9EB],[0x93F9;0xFE00]);
([0x2F9EC],[0x9415;0xFE00]);
([0x2F9EE],[0x958B;0xFE00]);
([0xF986],[0x95AD;0xFE00]);
([0x2F9F0],[0x95B7;0xFE00]);
([0xF9C6],[0x962E;0xFE00]);
([0xF951],[0x964B;0xFE00]);
([0xFA09],[0x964D;0xFE00]);
([0xF959],[0x9675;0xFE00]);
([0xF9D3],[0x9678;0xFE00]);
([0xFAC6],[0x967C;0xFE00]);
([0xF9DC],[0x9686;0xFE00]);
([0xF9F1],[0x96A3;0xFE00]);
([0xFA2F],[0x96B7;0xFE00]);
([0xF9B8],[0x96B8;0xFE00]);
([0x2F9F3],[0x96C3;0xFE00]);
([0xF9EA],[0x96E2;0xFE00]);
([0xFA68],[0x96E3;0xFE00]);
([0xFAC7],[0x96E3;0xFE01]);
([0xF9B2],[0x96F6;0xFE00]);
([0xF949],[0x96F7;0xFE00]);
([0x2F9F5],[0x9723;0xFE00]);
([0xF938],[0x9732;0xFE00]);
([0xF9B3],[0x9748;0xFE00]);
([0xFA1C],[0x9756;0xFE00]);
([0xFAC8],[0x9756;0xFE01]);
([0xFAC9],[0x97DB;0xFE00]);
([0x2F9FA],[0x97E0;0xFE00]);
([0xFA69],[0x97FF;0xFE00]);
([0xFACA],[0x97FF;0xFE01]);
([0xFACB],[0x980B;0xFE00]);
([0x2F9FE],[0x980B;0xFE01]);
([0x2F9FF],[0x980B;0xFE02]);
([0xF9B4],[0x9818;0xFE00]);
([0x2FA00],[0x9829;0xFE00]);
([0xFA6A],[0x983B;0xFE00]);
([0xFACC],[0x983B;0xFE01]);
([0xF9D0],[0x985E;0xFE00]);
([0x2FA02],[0x98E2;0xFE00]);
([0xFA2A],[0x98EF;0xFE00]);
([0xFA2B],[0x98FC;0xFE00]);
([0xFA2C],[0x9928;0xFE00]);
([0x2FA04],[0x9929;0xFE00]);
([0x2FA05],[0x99A7;0xFE00]);
([0x2FA06],[0x99C2;0xFE00]);
([0xF91A],[0x99F1;0xFE00]);
([0x2FA07],[0x99FE;0xFE00]);
([0xF987],[0x9A6A;0xFE00]);
([0xFACD],[0x9B12;0xFE00]);
([0x2FA0A],[0x9B12;0xFE01]);
([0xF939],[0x9B6F;0xFE00]);
([0x2FA0B],[0x9C40;0xFE00]);
([0xF9F2],[0x9C57;0xFE00]);
([0x2FA0C],[0x9CFD;0xFE00]);
([0x2FA0F],[0x9D67;0xFE00]);
([0xFA2D],[0x9DB4;0xFE00]);
([0xF93A],[0x9DFA;0xFE00]);
([0xF920],[0x9E1E;0xFE00]);
([0xF940],[0x9E7F;0xFE00]);
([0xF988],[0x9E97;0xFE00]);
([0xF9F3],[0x9E9F;0xFE00]);
([0x2FA15],[0x9EBB;0xFE00]);
([0xF989],[0x9ECE;0xFE00]);
([0x2FA17],[0x9EF9;0xFE00]);
([0x2FA18],[0x9EFE;0xFE00]);
([0x2FA19],[0x9F05;0xFE00]);
([0x2FA1A],[0x9F0F;0xFE00]);
([0x2FA1B],[0x9F16;0xFE00]);
([0x2FA1C],[0x9F3B;0xFE00]);
([0xFAD8],[0x9F43;0xFE00]);
([0xF9C4],[0x9F8D;0xFE00]);
([0xFAD9],[0x9F8E;0xFE00]);
([0xF907],[0x9F9C;0xFE00]);
([0xF908],[0x9F9C;0xFE01]);
([0xFACE],[0x9F9C;0xFE02]);
([0x2F803],[0x20122;0xFE00]);
([0x2F812],[0x2051C;0xFE00]);
([0x2F91B],[0x20525;0xFE00]);
([0x2F816],[0x2054B;0xFE00]);
([0x2F80D],[0x2063A;0xFE00]);
([0x2F9D9],[0x20804;0xFE00]);
([0x2F9DD],[0x208DE;0xFE00]);
([0x2F834],[0x20A2C;0xFE00]);
([0x2F838],[0x20B63;0xFE00]);
([0x2F859],[0x214E4;0xFE00]);
([0x2F860],[0x216A8;0xFE00]);
([0x2F861],[0x216EA;0xFE00]);
([0x2F86C],[0x219C8;0xFE00]);
([0x2F871],[0x21B18;0xFE00]);
([0x2F8F8],[0x21D0B;0xFE00]);
([0x2F87B],[0x21DE4;0xFE00]);
([0x2F87D],[0x21DE6;0xFE00]);
([0x2F889],[0x22183;0xFE00]);
([0x2F939],[0x2219F;0xFE00]);
([0x2F891],[0x22331;0xFE00]);
([0x2F892],[0x22331;0xFE01]);
([0x2F8A4],[0x226D4;0xFE00]);
([0xFAD0],[0x22844;0xFE00]);
([0xFACF],[0x2284A;0xFE00]);
([0x2F8B8],[0x22B0C;0xFE00]);
([0x2F8BE],[0x22BF1;0xFE00]);
([0x2F8CA],[0x2300A;0xFE00]);
([0x2F897],[0x232B8;0xFE00]);
([0x2F980],[0x2335F;0xFE00]);
([0x2F989],[0x23393;0xFE00]);
([0x2F98A],[0x2339C;0xFE00]);
([0x2F8DD],[0x233C3;0xFE00]);
([0xFAD1],[0x233D5;0xFE00]);
([0x2F8E3],[0x2346D;0xFE00]);
([0x2F8EC],[0x236A3;0xFE00]);
([0x2F8F0],[0x238A7;0xFE00]);
([0x2F8F7],[0x23A8D;0xFE00]);
([0x2F8F9],[0x23AFA;0xFE00]);
([0x2F8FB],[0x23CBC;0xFE00]);
([0x2F906],[0x23D1E;0xFE00]);
([0x2F90D],[0x23ED1;0xFE00]);
([0x2F910],[0x23F5E;0xFE00]);
([0x2F911],[0x23F8E;0xFE00]);
([0x2F91D],[0x24263;0xFE00]);
([0xFA6C],[0x242EE;0xFE00]);
([0x2F91F],[0x243AB;0xFE00]);
([0x2F923],[0x24608;0xFE00]);
([0x2F926],[0x24735;0xFE00]);
([0x2F927],[0x24814;0xFE00]);
([0x2F935],[0x24C36;0xFE00]);
([0x2F937],[0x24C92;0xFE00]);
([0x2F93B],[0x24FA1;0xFE00]);
([0x2F93C],[0x24FB8;0xFE00]);
([0x2F93D],[0x25044;0xFE00]);
([0x2F942],[0x250F2;0xFE00]);
([0x2F941],[0x250F3;0xFE00]);
([0x2F943],[0x25119;0xFE00]);
([0x2F944],[0x25133;0xFE00]);
([0xFAD5],[0x25249;0xFE00]);
([0x2F94D],[0x2541D;0xFE00]);
([0x2F952],[0x25626;0xFE00]);
([0x2F954],[0x2569A;0xFE00]);
([0x2F955],[0x256C5;0xFE00]);
([0x2F95C],[0x2597C;0xFE00]);
([0x2F95D],[0x25AA7;0xFE00]);
([0x2F95E],[0x25AA7;0xFE01]);
([0x2F961],[0x25BAB;0xFE00]);
([0x2F965],[0x25C80;0xFE00]);
([0xFAD6],[0x25CD0;0xFE00]);
([0x2F96B],[0x25F86;0xFE00]);
([0x2F898],[0x261DA;0xFE00]);
([0x2F972],[0x26228;0xFE00]);
([0x2F973],[0x26247;0xFE00]);
([0x2F975],[0x262D9;0xFE00]);
([0x2F977],[0x2633E;0xFE00]);
([0x2F97B],[0x264DA;0xFE00]);
([0x2F97C],[0x26523;0xFE00]);
([0x2F97E],[0x265A8;0xFE00]);
([0x2F987],[0x267A7;0xFE00]);
([0x2F988],[0x267B5;0xFE00]);
([0x2F997],[0x26B3C;0xFE00]);
([0x2F9A4],[0x26C36;0xFE00]);
([0x2F9A6],[0x26CD5;0xFE00]);
([0x2F9A5],[0x26D6B;0xFE00]);
([0x2F9AD],[0x26F2C;0xFE00]);
([0x2F9B0],[0x26FB1;0xFE00]);
([0x2F9B1],[0x270D2;0xFE00]);
([0x2F9AB],[0x273CA;0xFE00]);
([0x2F9C5],[0x27667;0xFE00]);
([0x2F9CB],[0x278AE;0xFE00]);
([0x2F9CC],[0x27966;0xFE00]);
([0x2F9D3],[0x27CA8;0xFE00]);
([0xFAD7],[0x27ED3;0xFE00]);
([0x2F9D8],[0x27F2F;0xFE00]);
([0x2F9E0],[0x285D2;0xFE00]);
([0x2F9E1],[0x285ED;0xFE00]);
([0x2F9E5],[0x2872E;0xFE00]);
([0x2F9ED],[0x28BFA;0xFE00]);
([0x2F9F1],[0x28D77;0xFE00]);
([0x2F9F6],[0x29145;0xFE00]);
([0x2F81C],[0x291DF;0xFE00]);
([0x2F9F7],[0x2921A;0xFE00]);
([0x2F9FB],[0x2940A;0xFE00]);
([0x2F9FD],[0x29496;0xFE00]);
([0x2FA01],[0x295B6;0xFE00]);
([0x2FA09],[0x29B30;0xFE00]);
([0x2FA10],[0x2A0CE;0xFE00]);
([0x2FA12],[0x2A105;0xFE00]);
([0x2FA13],[0x2A20E;0xFE00]);
([0x2FA14],[0x2A291;0xFE00]);
([0x2F88F],[0x2A392;0xFE00]);
([0x2FA1D],[0x2A600;0xFE00])].

(** tests/text-input.rs: to_text(a) == b *)
Definition t_read : list (list N * list N) := [
([0xFEFF],[]);
([0xFEFF;0xA],[0xA]);
([0xFEFF;0x68;0x65;0x6C;0x6C;0x6F],[0x68;0x65;0x6C;0x6C;0x6F;0xA]);
([0xD;0xA],[0xA]);
([0x68;0x65;0x6C;0x6C;0x6F;0xD;0xA],[0x68;0x65;0x6C;0x6C;0x6F;0xA]);
([0x68;0x65;0x6C;0x6C;0x6F;0xD;0xA;0x77;0x6F;0x72;0x6C;0x64],[0x68;0x65;0x6C;0x6C;0x6F;0xA;0x77;0x6F;0x72;0x6C;0x64;0xA]);
([0xD],[0xA]);
([0xD;0x68;0x65;0x6C;0x6C;0x6F;0xA],[0xA;0x68;0x65;0x6C;0x6C;0x6F;0xA]);
([0xD;0x68;0x65;0x6C;0x6C;0x6F;0xD],[0xA;0x68;0x65;0x6C;0x6C;0x6F;0xA]);
([0x68;0x65;0x6C;0x6C;0x6F;0xD;0x77;0x6F;0x72;0x6C;0x64],[0x68;0x65;0x6C;0x6C;0x6F;0xA;0x77;0x6F;0x72;0x6C;0x64;0xA]);
([0xA;0xD],[0xA;0xA]);
([0x2DF5;0x68;0x65;0x6C;0x6C;0x6F],[0x34F;0x2DED;0x2DEE;0x68;0x65;0x6C;0x6C;0x6F;0xA]);
([0x68;0x65;0x6C;0x6C;0x6F;0x2DF5],[0x68;0x65;0x6C;0x6C;0x6F;0x2DED;0x2DEE;0xA]);
([0x68;0x65;0x6C;0x6C;0x6F;0x2DF5;0x77;0x6F;0x72;0x6C;0x64],[0x68;0x65;0x6C;0x6C;0x6F;0x2DED;0x2DEE;0x77;0x6F;0x72;0x6C;0x64;0xA]);
([0x2329],[0xFFFD;0xA]);
([0x232A],[0xFFFD;0xA]);
([0x2126],[0x3A9;0xA]);
([0x212A],[0x4B;0xA]);
([0x212B],[0xC5;0xA]);
([0x68;0x65;0x6C;0x6C;0x6F;0xFEFF;0x77;0x6F;0x72;0x6C;0x64],[0x68;0x65;0x6C;0x6C;0x6F;0x2060;0x77;0x6F;0x72;0x6C;0x64;0xA]);
([0x68;0x65;0x6C;0x6C;0x6F;0xFEFF],[0x68;0x65;0x6C;0x6C;0x6F;0x2060;0xA]);
([0x68;0x65;0x6C;0x6C;0x6F;0xFEFF;0xA],[0x68;0x65;0x6C;0x6C;0x6F;0x2060;0xA]);
([7],[0xFFFD;0xA]);
([7;0xA],[0xFFFD;0xA]);
([0x68;0x65;0x6C;0x6C;0x6F;7;0x77;0x6F;0x72;0x6C;0x64],[0x68;0x65;0x6C;0x6C;0x6F;0xFFFD;0x77;0x6F;0x72;0x6C;0x64;0xA]);
([0xC],[0x20;0xA]);
([0xC;0xA],[0xA]);
([0xA;0xC;0xA],[0xA;0xA]);
([0x68;0x65;0x6C;0x6C;0x6F;0xC;0x77;0x6F;0x72;0x6C;0x64],[0x68;0x65;0x6C;0x6C;0x6F;0x20;0x77;0x6F;0x72;0x6C;0x64;0xA]);
([0x85],[0x20;0xA]);
([0x85;0xA],[0x20;0xA]);
([0xA;0x85;0xA],[0xA;0x20;0xA]);
([0x68;0x65;0x6C;0x6C;0x6F;0x85;0x77;0x6F;0x72;0x6C;0x64],[0x68;0x65;0x6C;0x6C;0x6F;0x20;0x77;0x6F;0x72;0x6C;0x64;0xA]);
([0x149],[0x2BC;0x6E;0xA]);
([0x673],[0x627;0x65F;0xA]);
([0x41;0xF77],[0x41;0xFB2;0xF71;0xF80;0xA]);
([0x41;0xF79],[0x41;0xFB3;0xF71;0xF80;0xA]);
([0x17A3],[0x17A2;0xA]);
([0x17A4],[0x17A2;0x17B6;0xA]);
([0x2028],[0x20;0xA]);
([0x2029],[0x20;0xA]);
([0x1B;0x5B],[0xA]);
([0x1B;0x5B;0x41],[0xA]);
([0x1B;0x5B;0x41;0x42],[0x42;0xA]);
([0x1B;0x5B;0x2B],[0xA]);
([0x1B;0x5B;0x2B;0x41],[0xA]);
([0x1B;0x5B;0x2B;0x41;0x42],[0x42;0xA]);
([0x1B;0x5B;0x2B;0x2B],[0xA]);
([0x1B;0x5B;0x2B;0x2B;0x41],[0xA]);
([0x1B;0x5B;0x2B;0x2B;0x41;0x42],[0x42;0xA]);
([0x1B;0x5B;0x18;0x41],[0x41;0xA]);
([0x1B;0x5B;0x1B;0x41;0x42],[0x42;0xA]);
([0x1B;0x5D;7],[0xA]);
([0x1B;0x5D;0x18],[0xA]);
([0x1B;0x5D;0x41;7],[0xA]);
([0x1B;0x5D;0x41;0x18],[0xA]);
([0x1B;0x5D;0x41;0x1B;0x5B;0x42;0x43],[0x43;0xA]);
([0x1B;0x5D;0x41;0x1B;0x5D;0x43;0x44;7;0x45],[0x45;0xA]);
([0x1B;0x5D;0x41;0xA;9;0x42;0x104C;7],[0xA]);
([0x1B;0x5D;0x41;0xA;9;0x42;0x104C;0x18],[0xA]);
([0x1B;0x5D;0x18],[0xA]);
([0x1B;0x5D;0x41;0x18],[0xA]);
([0x1B;0x5D;0x41;0xA;9;0x42;0x104C;0x18],[0xA]);
([0x1B;0x41],[0xA]);
([0x1B;0x18],[0xA]);
([0x1B;0x1B;0x41],[0xA]);
([0x1B;0x41;0xA],[0xA]);
([0x1B;9],[9;0xA]);
([0x1B;0xA],[0xA]);
([0x1B;0x5B;0x5B],[0xA]);
([0x1B;0x5B;0x5B;0x41],[0xA]);
([0x1B;0x5B;0x5B;0],[0xA]);
([0x1B;0x5B;0x5B;0x7F],[0xA]);
([0x1B;0x5B;0x5B;0xA],[0xA]);
([0x1B;0x5B;0x5B;0x41;0xA],[0xA]);
([0x1B;0x5B;0x5B;0x18],[0xA]);
([0x1B;0x5B;0x5B;7],[0xA]);
([0x1B;0x5B;0x5B;0x1B;0x41],[0x41;0xA]);
([0x1B],[0xA]);
([0x1B;0xA],[0xA]);
([],[]);
([0xA],[0xA]);
([0x68;0x65;0x6C;0x6C;0x6F],[0x68;0x65;0x6C;0x6C;0x6F;0xA]);
([0x68;0x65;0x6C;0x6C;0x6F;0xA;0x77;0x6F;0x72;0x6C;0x64],[0x68;0x65;0x6C;0x6C;0x6F;0xA;0x77;0x6F;0x72;0x6C;0x64;0xA]);
([0x68;0x65;0x6C;0x6C;0x6F;0xA;0x77;0x6F;0x72;0x6C;0x64;0xA],[0x68;0x65;0x6C;0x6C;0x6F;0xA;0x77;0x6F;0x72;0x6C;0x64;0xA]);
([0x68;0x65;0x6C;0x6C;0x6F;0xD;0xA;0x77;0x6F;0x72;0x6C;0x64],[0x68;0x65;0x6C;0x6C;0x6F;0xA;0x77;0x6F;0x72;0x6C;0x64;0xA]);
([0x68;0x65;0x6C;0x6C;0x6F;0xD;0xA;0x77;0x6F;0x72;0x6C;0x64;0xD;0xA],[0x68;0x65;0x6C;0x6C;0x6F;0xA;0x77;0x6F;0x72;0x6C;0x64;0xA])].

(** to_text_with_nel_compatibility(a) == b *)
Definition t_nel : list (list N * list N) := [
([0x68;0x65;0x6C;0x6C;0x6F;0x85;0x77;0x6F;0x72;0x6C;0x64],[0x68;0x65;0x6C;0x6C;0x6F;0xA;0x77;0x6F;0x72;0x6C;0x64;0xA]);
([0x85;0x68;0x65;0x6C;0x6C;0x6F;0x20;0x77;0x6F;0x72;0x6C;0x64;0x85],[0xA;0x68;0x65;0x6C;0x6C;0x6F;0x20;0x77;0x6F;0x72;0x6C;0x64;0xA])].

(** to_text_with_lsps_compatibility(a) == b *)
Definition t_lsps : list (list N * list N) := [
([0x68;0x65;0x6C;0x6C;0x6F;0x2028;0x77;0x6F;0x72;0x6C;0x64],[0x68;0x65;0x6C;0x6C;0x6F;0xA;0x77;0x6F;0x72;0x6C;0x64;0xA]);
([0x68;0x65;0x6C;0x6C;0x6F;0x2029;0x77;0x6F;0x72;0x6C;0x64],[0x68;0x65;0x6C;0x6C;0x6F;0xA;0x77;0x6F;0x72;0x6C;0x64;0xA]);
([0x2028;0x68;0x65;0x6C;0x6C;0x6F;0x20;0x77;0x6F;0x72;0x6C;0x64;0x2028],[0xA;0x68;0x65;0x6C;0x6C;0x6F;0x20;0x77;0x6F;0x72;0x6C;0x64;0xA]);
([0x2029;0x68;0x65;0x6C;0x6C;0x6F;0x20;0x77;0x6F;0x72;0x6C;0x64;0x2029],[0xA;0x68;0x65;0x6C;0x6C;0x6F;0x20;0x77;0x6F;0x72;0x6C;0x64;0xA])].

(** tests/disallowed_scalar_values.rs *)
Definition t_disallowed : list (list N) := [
[0];
[1];
[2];
[3];
[4];
[5];
[6];
[7];
[8];
[0xB];
[0xE];
[0xF];
[0x10];
[0x11];
[0x12];
[0x13];
[0x14];
[0x15];
[0x16];
[0x17];
[0x18];
[0x19];
[0x1A];
[0x1C];
[0x1D];
[0x1E];
[0x1F];
[0x7F];
[0x80];
[0x81];
[0x82];
[0x83];
[0x84];
[0x86];
[0x87];
[0x88];
[0x89];
[0x8A];
[0x8B];
[0x8C];
[0x8D];
[0x8E];
[0x8F];
[0x90];
[0x91];
[0x92];
[0x93];
[0x94];
[0x95];
[0x96];
[0x97];
[0x98];
[0x99];
[0x9A];
[0x9B];
[0x9C];
[0x9D];
[0x9E];
[0x9F];
[0x9E4];
[0x9E5];
[0xA64];
[0xA65];
[0xAE4];
[0xAE5];
[0xB64];
[0xB65];
[0xBE4];
[0xBE5];
[0xC64];
[0xC65];
[0xCE4];
[0xCE5];
[0xD64];
[0xD65];
[0x17B4];
[0x17B5];
[0x17D8];
[0x202A];
[0x202B];
[0x202C];
[0x202D];
[0x202E];
[0x2066];
[0x2067];
[0x2068];
[0x2069];
[0x206A];
[0x206B];
[0x206C];
[0x206D];
[0x206E];
[0x206F];
[0x2072];
[0x2073];
[0xFFF9];
[0xFFFA];
[0xFFFB];
[0xFFFC];
[0xE0001];
[0xFFFE];
[0xFFFF];
[0x1FFFE];
[0x1FFFF];
[0x2FFFE];
[0x2FFFF];
[0x3FFFE];
[0x3FFFF];
[0x4FFFE];
[0x4FFFF];
[0x5FFFE];
[0x5FFFF];
[0x6FFFE];
[0x6FFFF];
[0x7FFFE];
[0x7FFFF];
[0x8FFFE];
[0x8FFFF];
[0x9FFFE];
[0x9FFFF];
[0xAFFFE];
[0xAFFFF];
[0xBFFFE];
[0xBFFFF];
[0xCFFFE];
[0xCFFFF];
[0xDFFFE];
[0xDFFFF];
[0xEFFFE];
[0xEFFFF];
[0xFFFFE];
[0xFFFFF];
[0x10FFFE];
[0x10FFFF];
[0xFDD0];
[0xFDD1];
[0xFDD2];
[0xFDD3];
[0xFDD4];
[0xFDD5];
[0xFDD6];
[0xFDD7];
[0xFDD8];
[0xFDD9];
[0xFDDA];
[0xFDDB];
[0xFDDC];
[0xFDDD];
[0xFDDE];
[0xFDDF];
[0xFDE0];
[0xFDE1];
[0xFDE2];
[0xFDE3];
[0xFDE4];
[0xFDE5];
[0xFDE6];
[0xFDE7];
[0xFDE8];
[0xFDE9];
[0xFDEA];
[0xFDEB];
[0xFDEC];
[0xFDED];
[0xFDEE];
[0xFDEF];
[0x1D455];
[0x1D49D];
[0x1D4A0];
[0x1D4A1];
[0x1D4A3];
[0x1D4A4];
[0x1D4A7];
[0x1D4A8];
[0x1D4AD];
[0x1D4BA];
[0x1D4BC];
[0x1D4C4];
[0x1D506];
[0x1D50B];
[0x1D50C];
[0x1D515];
[0x1D51D];
[0x1D53A];
[0x1D53F];
[0x1D545];
[0x1D547];
[0x1D548];
[0x1D549];
[0x1D551]].

(** src/text_reader.rs: test(a, b) *)
Definition t_reader : list (list N * list N) := [
([],[]);
([0xA],[0xA]);
([0xA;0x68;0x65;0x6C;0x6C;0x6F;0xA;0x77;0x6F;0x72;0x6C;0x64;0xA],[0xA;0x68;0x65;0x6C;0x6C;0x6F;0xA;0x77;0x6F;0x72;0x6C;0x64;0xA]);
([0xFEFF],[]);
([0xFEFF;0x68;0x65;0x6C;0x6C;0x6F;0xFEFF;0x77;0x6F;0x72;0x6C;0x64;0xFEFF],[0x68;0x65;0x6C;0x6C;0x6F;0x2060;0x77;0x6F;0x72;0x6C;0x64;0x2060;0xA]);
([0xD;0xA],[0xA]);
([0xD;0xA;0x68;0x65;0x6C;0x6C;0x6F;0xD;0xA;0x77;0x6F;0x72;0x6C;0x64;0xD;0xA],[0xA;0x68;0x65;0x6C;0x6C;0x6F;0xA;0x77;0x6F;0x72;0x6C;0x64;0xA]);
([0xD],[0xA]);
([0xD;0x68;0x65;0x6C;0x6C;0x6F;0xD;0x77;0x6F;0x72;0x6C;0x64;0xD],[0xA;0x68;0x65;0x6C;0x6C;0x6F;0xA;0x77;0x6F;0x72;0x6C;0x64;0xA]);
([0xC],[0x20;0xA]);
([0xC;0x68;0x65;0x6C;0x6C;0x6F;0xC;0x77;0x6F;0x72;0x6C;0x64;0xC],[0x20;0x68;0x65;0x6C;0x6C;0x6F;0x20;0x77;0x6F;0x72;0x6C;0x64;0x20;0xA]);
([0x7F],[0xFFFD;0xA]);
([0x7F;0x68;0x65;0x6C;0x6C;0x6F;0x7F;0x77;0x6F;0x72;0x6C;0x64;0x7F],[0xFFFD;0x68;0x65;0x6C;0x6C;0x6F;0xFFFD;0x77;0x6F;0x72;0x6C;0x64;0xFFFD;0xA]);
([0;1;2;3;4;5;6;7],[0xFFFD;0xFFFD;0xFFFD;0xFFFD;0xFFFD;0xFFFD;0xFFFD;0xFFFD;0xA]);
([8;0xB;0xE;0xF],[0xFFFD;0xFFFD;0xFFFD;0xFFFD;0xA]);
([0x10;0x11;0x12;0x13;0x14;0x15;0x16;0x17],[0xFFFD;0xFFFD;0xFFFD;0xFFFD;0xFFFD;0xFFFD;0xFFFD;0xFFFD;0xA]);
([0x18;0x19;0x1A;0x1C;0x1D;0x1E;0x1F],[0xFFFD;0xFFFD;0xFFFD;0xFFFD;0xFFFD;0xFFFD;0xFFFD;0xA]);
([0x80;0x81;0x82;0x83;0x84;0x85;0x86;0x87],[0xFFFD;0xFFFD;0xFFFD;0xFFFD;0xFFFD;0x20;0xFFFD;0xFFFD;0xA]);
([0x88;0x89;0x8A;0x8B;0x8C;0x8D;0x8E;0x8F],[0xFFFD;0xFFFD;0xFFFD;0xFFFD;0xFFFD;0xFFFD;0xFFFD;0xFFFD;0xA]);
([0x90;0x91;0x92;0x93;0x94;0x95;0x96;0x97],[0xFFFD;0xFFFD;0xFFFD;0xFFFD;0xFFFD;0xFFFD;0xFFFD;0xFFFD;0xA]);
([0x98;0x99;0x9A;0x9B;0x9C;0x9D;0x9E;0x9F],[0xFFFD;0xFFFD;0xFFFD;0xFFFD;0xFFFD;0xFFFD;0xFFFD;0xFFFD;0xA]);
([0x212B],[0xC5;0xA]);
([0xC5],[0xC5;0xA]);
([0x41;0x30A],[0xC5;0xA]);
([0x30A],[0x34F;0x30A;0xA]);
([0x1B],[0xA]);
([0x1B;0x40],[0xA]);
([0x1B;0x40;0x68;0x65;0x6C;0x6C;0x6F;0x1B;0x40;0x77;0x6F;0x72;0x6C;0x64;0x1B;0x40],[0x68;0x65;0x6C;0x6C;0x6F;0x77;0x6F;0x72;0x6C;0x64;0xA]);
([0x1B;0x5B],[0xA]);
([0x1B;0x5B;0x40;0x68;0x65;0x6C;0x6C;0x6F;0x1B;0x5B;0x40;0x77;0x6F;0x72;0x6C;0x64;0x1B;0x5B;0x40],[0x68;0x65;0x6C;0x6C;0x6F;0x77;0x6F;0x72;0x6C;0x64;0xA]);
([0x1B;0x5B;0x2B;0x40;0x68;0x65;0x6C;0x6C;0x6F;0x1B;0x5B;0x2B;0x40;0x77;0x6F;0x72;0x6C;0x64;0x1B;0x5B;0x2B;0x40],[0x68;0x65;0x6C;0x6C;0x6F;0x77;0x6F;0x72;0x6C;0x64;0xA]);
([0x1B;0x5D],[0xA]);
([0x1B;0x5D;7;0x68;0x65;0x6C;0x6C;0x6F;0x1B;0x5D;7;0x77;0x6F;0x72;0x6C;0x64;0x1B;0x5D;7],[0x68;0x65;0x6C;0x6C;0x6F;0x77;0x6F;0x72;0x6C;0x64;0xA]);
([0x1B;0x5D;0x6D;0x65;0x73;0x73;0x61;0x67;0x65;7;0x68;0x65;0x6C;0x6C;0x6F;0x1B;0x5D;0x6D;0x65;0x73;0x73;0x61;0x67;0x65;7;0x77;0x6F;0x72;0x6C;0x64;0x1B;0x5D;0x6D;0x65;0x73;0x73;0x61;0x67;0x65;7],[0x68;0x65;0x6C;0x6C;0x6F;0x77;0x6F;0x72;0x6C;0x64;0xA]);
([0x1B;0x5D;0x6D;0x65;0x73;0xA;0x73;9;0x61;0x67;0x65;7;0x68;0x65;0x6C;0x6C;0x6F;0x1B;0x5D;0x6D;0x65;0x73;0xA;0x73;9;0x61;0x67;0x65;7;0x77;0x6F;0x72;0x6C;0x64;0x1B;0x5D;0x6D;0x65;0x73;0xA;0x73;9;0x61;0x67;0x65;7],[0x68;0x65;0x6C;0x6C;0x6F;0x77;0x6F;0x72;0x6C;0x64;0xA]);
([0x1B;0x5B;0x5B;0x41],[0xA]);
([0x1B;0x5B;0x5B;0x41;0x68;0x65;0x6C;0x6C;0x6F;0x1B;0x5B;0x5B;0x41;0x77;0x6F;0x72;0x6C;0x64;0x1B;0x5B;0x5B;0x41],[0x68;0x65;0x6C;0x6C;0x6F;0x77;0x6F;0x72;0x6C;0x64;0xA]);
([0x1D455],[0xFFFD;0xA]);
([0x1D455;0xA],[0xFFFD;0xA]);
([0x11099;0x110BA],[0x1109A;0xA]);
([0x1109A],[0x1109A;0xA]);
([0x110BA],[0x34F;0x110BA;0xA]);
([0x110BA;0xA],[0x34F;0x110BA;0xA]);
([0x11099;0x110BA;0xA],[0x1109A;0xA]);
([0x1109A;0xA],[0x1109A;0xA])].

(** src/text_writer.rs: test(a, b) *)
Definition t_writer : list (list N * list N) := [
([],[]);
([0xA],[0xA]);
([0xA;0x68;0x65;0x6C;0x6C;0x6F;0xA;0x77;0x6F;0x72;0x6C;0x64;0xA],[0xA;0x68;0x65;0x6C;0x6C;0x6F;0xA;0x77;0x6F;0x72;0x6C;0x64;0xA]);
([0xC5;0xA],[0xC5;0xA]);
([0x41;0x30A;0xA],[0xC5;0xA]);
([0x11099;0x110BA;0xA],[0x1109A;0xA]);
([0x1109A;0xA],[0x1109A;0xA])].

(** src/text_writer.rs: test_error(a) *)
Definition t_writer_err : list (list N) := [
[0x68;0x65;0x6C;0x6C;0x6F];
[0xFEFF];
[0xFEFF;0xA];
[0xFEFF;0x68;0x65;0x6C;0x6C;0x6F;0xFEFF;0x77;0x6F;0x72;0x6C;0x64;0xFEFF];
[0xFEFF;0x68;0x65;0x6C;0x6C;0x6F;0xFEFF;0x77;0x6F;0x72;0x6C;0x64;0xFEFF;0xA];
[0xFEFF;0x68;0x65;0x6C;0x6C;0x6F;0x20;0x77;0x6F;0x72;0x6C;0x64;0xA];
[0x68;0x65;0x6C;0x6C;0x6F;0xFEFF;0x77;0x6F;0x72;0x6C;0x64;0xA];
[0x68;0x65;0x6C;0x6C;0x6F;0x20;0x77;0x6F;0x72;0x6C;0x64;0xFEFF];
[0x68;0x65;0x6C;0x6C;0x6F;0x20;0x77;0x6F;0x72;0x6C;0x64;0xFEFF;0xA];
[0xD;0xA];
[0xD;0xA;0x68;0x65;0x6C;0x6C;0x6F;0xD;0xA;0x77;0x6F;0x72;0x6C;0x64;0xD];
[0xD;0xA;0x68;0x65;0x6C;0x6C;0x6F;0xD;0xA;0x77;0x6F;0x72;0x6C;0x64;0xD;0xA];
[0xD;0xA;0x68;0x65;0x6C;0x6C;0x6F;0x20;0x77;0x6F;0x72;0x6C;0x64;0xA];
[0x68;0x65;0x6C;0x6C;0x6F;0xD;0xA;0x77;0x6F;0x72;0x6C;0x64;0xA];
[0x68;0x65;0x6C;0x6C;0x6F;0x20;0x77;0x6F;0x72;0x6C;0x64;0xD];
[0x68;0x65;0x6C;0x6C;0x6F;0x20;0x77;0x6F;0x72;0x6C;0x64;0xD;0xA];
[0xD];
[0xD;0x68;0x65;0x6C;0x6C;0x6F;0xD;0x77;0x6F;0x72;0x6C;0x64;0xD];
[0xD;0x68;0x65;0x6C;0x6C;0x6F;0xD;0x77;0x6F;0x72;0x6C;0x64;0xD;0xA];
[0xD;0x68;0x65;0x6C;0x6C;0x6F;0x20;0x77;0x6F;0x72;0x6C;0x64;0xA];
[0x68;0x65;0x6C;0x6C;0x6F;0xD;0x77;0x6F;0x72;0x6C;0x64;0xA];
[0x68;0x65;0x6C;0x6C;0x6F;0x20;0x77;0x6F;0x72;0x6C;0x64;0xD];
[0x68;0x65;0x6C;0x6C;0x6F;0x20;0x77;0x6F;0x72;0x6C;0x64;0xD;0xA];
[0xC];
[0xC;0xA];
[0xC;0x68;0x65;0x6C;0x6C;0x6F;0xC;0x77;0x6F;0x72;0x6C;0x64;0xC];
[0xC;0x68;0x65;0x6C;0x6C;0x6F;0xC;0x77;0x6F;0x72;0x6C;0x64;0xC;0xA];
[0xC;0x68;0x65;0x6C;0x6C;0x6F;0x20;0x77;0x6F;0x72;0x6C;0x64;0xA];
[0x68;0x65;0x6C;0x6C;0x6F;0xC;0x77;0x6F;0x72;0x6C;0x64;0xA];
[0x68;0x65;0x6C;0x6C;0x6F;0x20;0x77;0x6F;0x72;0x6C;0x64;0xC];
[0x68;0x65;0x6C;0x6C;0x6F;0x20;0x77;0x6F;0x72;0x6C;0x64;0xC;0xA];
[0x7F];
[0x7F;0xA];
[0x7F;0x68;0x65;0x6C;0x6C;0x6F;0x7F;0x77;0x6F;0x72;0x6C;0x64;0x7F];
[0x7F;0x68;0x65;0x6C;0x6C;0x6F;0x7F;0x77;0x6F;0x72;0x6C;0x64;0x7F;0xA];
[0x7F;0x68;0x65;0x6C;0x6C;0x6F;0x20;0x77;0x6F;0x72;0x6C;0x64;0xA];
[0x68;0x65;0x6C;0x6C;0x6F;0x7F;0x77;0x6F;0x72;0x6C;0x64;0xA];
[0x68;0x65;0x6C;0x6C;0x6F;0x20;0x77;0x6F;0x72;0x6C;0x64;0x7F];
[0x68;0x65;0x6C;0x6C;0x6F;0x20;0x77;0x6F;0x72;0x6C;0x64;0x7F;0xA];
[0];
[1];
[2];
[3];
[4];
[5];
[6];
[7];
[8];
[0xB];
[0xE];
[0xF];
[0x10];
[0x11];
[0x12];
[0x13];
[0x14];
[0x15];
[0x16];
[0x17];
[0x18];
[0x19];
[0x1A];
[0x1B];
[0x1C];
[0x1D];
[0x1E];
[0x1F];
[0;0xA];
[1;0xA];
[2;0xA];
[3;0xA];
[4;0xA];
[5;0xA];
[6;0xA];
[7;0xA];
[8;0xA];
[0xB;0xA];
[0xE;0xA];
[0xF;0xA];
[0x10;0xA];
[0x11;0xA];
[0x12;0xA];
[0x13;0xA];
[0x14;0xA];
[0x15;0xA];
[0x16;0xA];
[0x17;0xA];
[0x18;0xA];
[0x19;0xA];
[0x1A;0xA];
[0x1B;0xA];
[0x1C;0xA];
[0x1D;0xA];
[0x1E;0xA];
[0x1F;0xA];
[0x80];
[0x81];
[0x82];
[0x83];
[0x84];
[0x85];
[0x86];
[0x87];
[0x88];
[0x89];
[0x8A];
[0x8B];
[0x8C];
[0x8D];
[0x8E];
[0x8F];
[0x90];
[0x91];
[0x92];
[0x93];
[0x94];
[0x95];
[0x96];
[0x97];
[0x98];
[0x99];
[0x9A];
[0x9B];
[0x9C];
[0x9D];
[0x9E];
[0x9F];
[0x80;0xA];
[0x81;0xA];
[0x82;0xA];
[0x83;0xA];
[0x84;0xA];
[0x85;0xA];
[0x86;0xA];
[0x87;0xA];
[0x88;0xA];
[0x89;0xA];
[0x8A;0xA];
[0x8B;0xA];
[0x8C;0xA];
[0x8D;0xA];
[0x8E;0xA];
[0x8F;0xA];
[0x90;0xA];
[0x91;0xA];
[0x92;0xA];
[0x93;0xA];
[0x94;0xA];
[0x95;0xA];
[0x96;0xA];
[0x97;0xA];
[0x98;0xA];
[0x99;0xA];
[0x9A;0xA];
[0x9B;0xA];
[0x9C;0xA];
[0x9D;0xA];
[0x9E;0xA];
[0x9F;0xA];
[0x212B];
[0x212B;0xA];
[0x30A];
[0x30A;0xA];
[0x1B];
[0x1B;0xA];
[0x1B;0x40];
[0x1B;0x40;0xA];
[0x1B;0x40;0x68;0x65;0x6C;0x6C;0x6F;0x1B;0x40;0x77;0x6F;0x72;0x6C;0x64;0x1B;0x40];
[0x1B;0x40;0x68;0x65;0x6C;0x6C;0x6F;0x1B;0x40;0x77;0x6F;0x72;0x6C;0x64;0x1B;0x40;0xA];
[0x1B;0x5B];
[0x1B;0x5B;0xA];
[0x1B;0x5B;0x40;0x68;0x65;0x6C;0x6C;0x6F;0x1B;0x5B;0x40;0x77;0x6F;0x72;0x6C;0x64;0x1B;0x5B;0x40];
[0x1B;0x5B;0x40;0x68;0x65;0x6C;0x6C;0x6F;0x1B;0x5B;0x40;0x77;0x6F;0x72;0x6C;0x64;0x1B;0x5B;0x40;0xA];
[0x1B;0x5B;0x2B;0x40;0x68;0x65;0x6C;0x6C;0x6F;0x1B;0x5B;0x2B;0x40;0x77;0x6F;0x72;0x6C;0x64;0x1B;0x5B;0x2B;0x40];
[0x1B;0x5B;0x2B;0x40;0x68;0x65;0x6C;0x6C;0x6F;0x1B;0x5B;0x2B;0x40;0x77;0x6F;0x72;0x6C;0x64;0x1B;0x5B;0x2B;0x40;0xA];
[0x1B;0x5D];
[0x1B;0x5D;0xA];
[0x1B;0x5D;7;0x68;0x65;0x6C;0x6C;0x6F;0x1B;0x5D;7;0x77;0x6F;0x72;0x6C;0x64;0x1B;0x5D;7];
[0x1B;0x5D;7;0x68;0x65;0x6C;0x6C;0x6F;0x1B;0x5D;7;0x77;0x6F;0x72;0x6C;0x64;0x1B;0x5D;7;0xA];
[0x1B;0x5D;0x6D;0x65;0x73;0x73;0x61;0x67;0x65;7;0x68;0x65;0x6C;0x6C;0x6F;0x1B;0x5D;0x6D;0x65;0x73;0x73;0x61;0x67;0x65;7;0x77;0x6F;0x72;0x6C;0x64;0x1B;0x5D;0x6D;0x65;0x73;0x73;0x61;0x67;0x65;7];
[0x1B;0x5D;0x6D;0x65;0x73;0x73;0x61;0x67;0x65;7;0x68;0x65;0x6C;0x6C;0x6F;0x1B;0x5D;0x6D;0x65;0x73;0x73;0x61;0x67;0x65;7;0x77;0x6F;0x72;0x6C;0x64;0x1B;0x5D;0x6D;0x65;0x73;0x73;0x61;0x67;0x65;7;0xA];
[0x1B;0x5D;0x6D;0x65;0x73;0xA;0x73;9;0x61;0x67;0x65;7;0x68;0x65;0x6C;0x6C;0x6F;0x1B;0x5D;0x6D;0x65;0x73;0xA;0x73;9;0x61;0x67;0x65;7;0x77;0x6F;0x72;0x6C;0x64;0x1B;0x5D;0x6D;0x65;0x73;0xA;0x73;9;0x61;0x67;0x65;7];
[0x1B;0x5D;0x6D;0x65;0x73;0xA;0x73;9;0x61;0x67;0x65;7;0x68;0x65;0x6C;0x6C;0x6F;0x1B;0x5D;0x6D;0x65;0x73;0xA;0x73;9;0x61;0x67;0x65;7;0x77;0x6F;0x72;0x6C;0x64;0x1B;0x5D;0x6D;0x65;0x73;0xA;0x73;9;0x61;0x67;0x65;7;0xA];
[0x1B;0x5B;0x5B;0x41];
[0x1B;0x5B;0x5B;0x41;0xA];
[0x1B;0x5B;0x5B;0x41;0x68;0x65;0x6C;0x6C;0x6F;0x1B;0x5B;0x5B;0x41;0x77;0x6F;0x72;0x6C;0x64;0x1B;0x5B;0x5B;0x41];
[0x1B;0x5B;0x5B;0x41;0x68;0x65;0x6C;0x6C;0x6F;0x1B;0x5B;0x5B;0x41;0x77;0x6F;0x72;0x6C;0x64;0x1B;0x5B;0x5B;0x41;0xA];
[0x1D455];
[0x1D455;0xA];
[0x11099;0x110BA];
[0x1109A];
[0x110BA];
[0x110BA;0xA]].

(** tests/text-output.rs: to_text(a).unwrap() == b *)
Definition t_write : list (list N * list N) := [
([],[]);
([0xA],[0xA]);
([0x68;0x65;0x6C;0x6C;0x6F;0xA],[0x68;0x65;0x6C;0x6C;0x6F;0xA]);
([0x68;0x65;0x6C;0x6C;0x6F;0xA;0x77;0x6F;0x72;0x6C;0x64;0xA],[0x68;0x65;0x6C;0x6C;0x6F;0xA;0x77;0x6F;0x72;0x6C;0x64;0xA])].

(** tests/text-output.rs: to_text(a).unwrap_err() *)
Definition t_write_err : list (list N) := [
[0x68;0x65;0x6C;0x6C;0x6F;0xFEFF;0xA];
[0x68;0x65;0x6C;0x6C;0x6F];
[0x68;0x65;0x6C;0x6C;0x6F;0xA;0x77;0x6F;0x72;0x6C;0x64];
[0xD;0xA];
[0x68;0x65;0x6C;0x6C;0x6F;0xD;0xA];
[0x68;0x65;0x6C;0x6C;0x6F;0xD;0xA;0x77;0x6F;0x72;0x6C;0x64];
[0x68;0x65;0x6C;0x6C;0x6F;0xD;0xA;0x77;0x6F;0x72;0x6C;0x64;0xD;0xA];
[0x2DF5;0x68;0x65;0x6C;0x6C;0x6F];
[0x68;0x65;0x6C;0x6C;0x6F;0x2DF5];
[0x68;0x65;0x6C;0x6C;0x6F;0x2DF5;0x77;0x6F;0x72;0x6C;0x64];
[7;0xA];
[0xC;0xA];
[0x1B;0xA];
[0xFEFF;0xA];
[0x149;0xA];
[0x673;0xA];
[0xF77;0xA];
[0xF79;0xA];
[0x17A3;0xA];
[0x17A4;0xA];
[0x2329;0xA];
[0x232A;0xA];
[0x2126;0xA];
[0x212A;0xA];
[0x212B;0xA];
[0x2028;0xA];
[0x2029;0xA]].

(** to_text_with_bom_compatibility(a).unwrap() == b *)
Definition t_bom : list (list N * list N) := [
([],[0xFEFF]);
([0xA],[0xFEFF;0xA]);
([0x68;0x65;0x6C;0x6C;0x6F;0xA],[0xFEFF;0x68;0x65;0x6C;0x6C;0x6F;0xA])].

(** to_text_with_crlf_compatibility(a).unwrap() == b *)
Definition t_crlf : list (list N * list N) := [
([0xA],[0xD;0xA]);
([0xA;0xA],[0xD;0xA;0xD;0xA]);
([0x68;0x65;0x6C;0x6C;0x6F;0xA],[0x68;0x65;0x6C;0x6C;0x6F;0xD;0xA]);
([0x68;0x65;0x6C;0x6C;0x6F;0xA;0x77;0x6F;0x72;0x6C;0x64;0xA],[0x68;0x65;0x6C;0x6C;0x6F;0xD;0xA;0x77;0x6F;0x72;0x6C;0x64;0xD;0xA])].

(** to_text_with_crlf_compatibility(a).unwrap_err() *)
Definition t_crlf_err : list (list N) := [
[0xD;0xA]].

(** tests/buf_read_text.rs: the lines of the first string *)
Definition t_lines : list (list N) := [
[0x72;0x65;0x64;0xA;0x6F;0x72;0x61;0x6E;0x67;0x65;0xA;0x79;0x65;0x6C;0x6C;0x6F;0x77;0xA;0x67;0x72;0x65;0x65;0x6E;0xA;0x62;0x6C;0x75;0x65;0xA;0x70;0x75;0x72;0x70;0x6C;0x65;0xA];
[0x72;0x65;0x64];
[0x6F;0x72;0x61;0x6E;0x67;0x65];
[0x79;0x65;0x6C;0x6C;0x6F;0x77];
[0x67;0x72;0x65;0x65;0x6E];
[0x62;0x6C;0x75;0x65];
[0x70;0x75;0x72;0x70;0x6C;0x65]].

(** tests/buf_read_text.rs: the lines of the first string *)
Definition t_lines_lossy : list (list N) := [
[0x1D515;0x65;0x64;0x200D;0xA;0x200D;0x6F;0x72;0x61;0x6E;0x1D4BC;0x65;0xA;0x79;0x65;0x1D4A7;0x1D4A7;0x6F;0x77;0xA;0x67;0x72;0x65;0x65;0x1D545;0xA;0x2329;0x62;0x6C;0x75;0x65;0x232A;0xA;0x70;0x75;0x72;0x70;0x6C;0x65;0x2072;0xA];
[0xFFFD;0x65;0x64;0x200D;0x34F];
[0x34F;0x200D;0x6F;0x72;0x61;0x6E;0xFFFD;0x65];
[0x79;0x65;0xFFFD;0xFFFD;0x6F;0x77];
[0x67;0x72;0x65;0x65;0xFFFD];
[0xFFFD;0x62;0x6C;0x75;0x65;0xFFFD];
[0x70;0x75;0x72;0x70;0x6C;0x65;0xFFFD]].

(** samples/basic-text-example.txt *)
Definition t_example : list (list N) := [
[0x54;0x68;0x69;0x73;0x20;0x66;0x69;0x6C;0x65;0x20;0x63;0x6F;0x6E;0x74;0x61;0x69;0x6E;0x73;0x20;0x76;0x61;0x6C;0x69;0x64;0x20;0x42;0x61;0x73;0x69;0x63;0x20;0x54;0x65;0x78;0x74;0x2E;0xA;0xA;0x42;0x61;0x73;0x69;0x63;0x20;0x54;0x65;0x78;0x74;0x20;0x69;0x6E;0x63;0x6C;0x75;0x64;0x65;0x73;0x20;0x74;0x61;0x62;9;0x61;0x6E;0x64;0x20;0x6C;0x69;0x6D;0x69;0x74;0x65;0x64;0x20;0x66;0x6F;0x72;0x6D;0x61;0x74;0x20;0x63;0x6F;0x6E;0x74;0x72;0x6F;0x6C;0x73;0x20;0x73;0x75;0x63;0x68;0x20;0x61;0x73;0x20;0x6E;0x6F;0x2D;0x62;0x72;0x65;0x61;0x6B;0xA0;0x73;0x70;0x61;0x63;0x65;0x2C;0xA;0x6E;0x6F;0x6E;0x2011;0x62;0x72;0x65;0x61;0x6B;0x69;0x6E;0x67;0x20;0x68;0x79;0x70;0x68;0x65;0x6E;0x2C;0x20;0x6E;0x6F;0x2D;0x62;0x72;0x65;0x61;0x6B;0xA0;0x73;0x70;0x61;0x63;0x65;0x2C;0x20;0x6E;0x6F;0x6E;0x2011;0x62;0x72;0x65;0x61;0x6B;0x69;0x6E;0x67;0x20;0x68;0x79;0x70;0x68;0x65;0x6E;0x2C;0x20;0x61;0x6E;0x64;0xA;0x73;0x6F;0x66;0x74;0xAD;0x68;0x79;0x70;0x68;0x65;0x6E;0x2E;0x20;0x49;0x74;0x20;0x69;0x6E;0x63;0x6C;0x75;0x64;0x65;0x73;0x20;0x74;0x68;0x65;0x20;0x67;0x72;0x61;0x70;0x68;0x65;0x6D;0x65;0x20;0x63;0x6F;0x6E;0x74;0x72;0x6F;0x6C;0x20;0x63;0x6F;0x6D;0x62;0x69;0x6E;0x69;0x6E;0x67;0x20;0x67;0x72;0x61;0x70;0x68;0x65;0x6D;0x65;0x20;0x6A;0x6F;0x69;0x6E;0x65;0x72;0xA;0x28;0x63;0x6F;0x6D;0x70;0x61;0x72;0x65;0x20;0x22;0xDC;0x22;0x20;0x77;0x69;0x74;0x68;0x20;0x22;0x55;0x34F;0x308;0x22;0x29;0x2C;0x20;0x7A;0x65;0x72;0x6F;0x2D;0x77;0x69;0x74;0x68;0x20;0x6E;0x6F;0x6E;0x2D;0x6A;0x6F;0x69;0x6E;0x65;0x72;0x20;0x28;0x63;0x6F;0x6D;0x70;0x61;0x72;0x65;0x20;0x22;0x64;0x65;0x61;0x66;0x6C;0x79;0x22;0x20;0x77;0x69;0x74;0x68;0xA;0x22;0x64;0x65;0x61;0x66;0x200C;0x6C;0x79;0x22;0x29;0x2C;0x20;0x7A;0x65;0x72;0x6F;0x20;0x77;0x69;0x74;0x68;0x20;0x6A;0x6F;0x69;0x6E;0x65;0x72;0x20;0x28;0x63;0x6F;0x6D;0x70;0x61;0x72;0x65;0x20;0x22;0x1F636;0x200D;0x1F32B;0xFE0F;0x22;0x20;0x77;0x69;0x74;0x68;0x20;0x22;0x1F636;0x1F32B;0xFE0F;0x22;0x29;0x2C;0xA;0x61;0x6E;0x64;0x20;0x77;0x6F;0x72;0x64;0x20;0x6A;0x6F;0x69;0x6E;0x2060;0x65;0x72;0x2E;0x20;0x41;0x6E;0x64;0x20;0x69;0x74;0x20;0x69;0x6E;0x63;0x6C;0x75;0x64;0x65;0x73;0x20;0x74;0x68;0x65;0x20;0x69;0x6D;0x70;0x6C;0x69;0x63;0x69;0x74;0x200E;0x20;0x64;0x69;0x72;0x65;0x63;0x74;0x69;0x6F;0x6E;0x61;0x6C;0x200F;0xA;0x66;0x6F;0x72;0x6D;0x61;0x74;0x74;0x69;0x6E;0x67;0x61C;0x20;0x63;0x68;0x61;0x72;0x61;0x63;0x74;0x65;0x72;0x73;0x20;0x61;0x6E;0x64;0x20;0x74;0x68;0x65;0x20;0x72;0x65;0x70;0x6C;0x61;0x63;0x65;0x6D;0x65;0x6E;0x74;0x20;0x63;0x68;0x61;0x72;0x61;0x63;0x74;0x65;0x72;0x20;0x28;0xFFFD;0x29;0x2E;0x20;0x41;0x6E;0x64;0x20;0x74;0x68;0x65;0xA;0x4D;0x6F;0x6E;0x67;0x6F;0x6C;0x69;0x61;0x6E;0x20;0x76;0x6F;0x77;0x65;0x6C;0x20;0x73;0x65;0x70;0x61;0x72;0x61;0x74;0x6F;0x72;0x20;0x28;0x63;0x6F;0x6D;0x70;0x61;0x72;0x65;0x20;0x22;0x182F;0x1824;0x182D;0x180E;0x1820;0x22;0x20;0x77;0x69;0x74;0x68;0x20;0x22;0x182F;0x1824;0x182D;0x1820;0x22;0x29;0x2E;0x20;0x41;0x6E;0x64;0x2C;0x20;0x6F;0x66;0x20;0x63;0x6F;0x75;0x72;0x73;0x65;0x2C;0xA;0x65;0x6D;0x6F;0x6A;0x69;0x2C;0x20;0x62;0x6F;0x74;0x68;0x20;0x42;0x4D;0x50;0x20;0x263A;0x20;0x61;0x6E;0x64;0x20;0x6E;0x6F;0x6E;0x2D;0x42;0x4D;0x50;0x20;0x1F600;0x2E;0xA;0xA;0x49;0x74;0x20;0x69;0x6E;0x63;0x6C;0x75;0x64;0x65;0x73;0x20;0x61;0x6C;0x6C;0x20;0x6F;0x66;0x20;0x74;0x68;0x65;0x20;0x70;0x72;0x69;0x76;0x61;0x74;0x65;0x20;0x75;0x73;0x65;0x20;0x63;0x68;0x61;0x72;0x61;0x63;0x74;0x65;0x72;0x73;0x20;0x28;0x69;0x6E;0x63;0x6C;0x75;0x64;0x69;0x6E;0x67;0x20;0x10FFFD;0x29;0x2C;0x20;0x63;0x68;0x61;0x72;0x61;0x63;0x74;0x65;0x72;0x73;0xA;0x77;0x69;0x74;0x68;0x20;0x63;0x6F;0x6D;0x70;0x6C;0x65;0x78;0x20;0x64;0x65;0x63;0x6F;0x6D;0x70;0x6F;0x73;0x69;0x74;0x69;0x6F;0x6E;0x73;0x20;0x28;0x73;0x75;0x63;0x68;0x20;0x61;0x73;0x20;0xFDFA;0x29;0x2C;0x20;0x61;0x6E;0x64;0x20;0x63;0x68;0x61;0x72;0x61;0x63;0x74;0x65;0x72;0x73;0x20;0x77;0x69;0x74;0x68;0x20;0x6E;0x6F;0x2800;0x76;0x69;0x73;0x69;0x62;0x6C;0x65;0xA;0x64;0x69;0x73;0x70;0x6C;0x61;0x79;0x2E;0xA;0xA;0x49;0x74;0x20;0x75;0x73;0x65;0x73;0x20;0x76;0x61;0x72;0x69;0x61;0x74;0x69;0x6F;0x6E;0x20;0x73;0x65;0x71;0x75;0x65;0x6E;0x63;0x65;0x73;0x20;0x74;0x6F;0x20;0x70;0x72;0x65;0x73;0x65;0x72;0x76;0x65;0x20;0x74;0x68;0x65;0x20;0x69;0x6E;0x74;0x65;0x6E;0x74;0x20;0x6F;0x66;0x20;0xA;0x43;0x4A;0x4B;0x20;0x63;0x6F;0x6D;0x70;0x61;0x74;0x69;0x62;0x69;0x6C;0x69;0x74;0x79;0x20;0x69;0x64;0x65;0x6F;0x67;0x72;0x61;0x70;0x68;0x73;0x20;0x28;0x63;0x6F;0x6D;0x70;0x61;0x72;0x65;0x20;0x6148;0x20;0x77;0x69;0x74;0x68;0x20;0x6148;0xFE00;0x29;0x2E;0xA;0xA;0x64A;0x62A;0x636;0x645;0x646;0x20;0x646;0x635;0x64B;0x627;0x20;0x645;0x646;0x20;0x627;0x644;0x64A;0x645;0x64A;0x646;0x20;0x625;0x644;0x649;0x20;0x627;0x644;0x64A;0x633;0x627;0x631;0x2E;0xA;0xA;0x5A;0x31B;0x316;0x317;0x318;0x319;0x31C;0x31D;0x300;0x301;0x302;0x303;0x304;0x305;0x306;0x307;0x308;0x309;0x30A;0x30B;0x30C;0x30D;0x30E;0x30F;0x310;0x311;0x312;0x313;0x314;0x315;0x31A;0x61;0x334;0x335;0x336;0x337;0x338;0x321;0x322;0x327;0x328;0x31F;0x320;0x323;0x324;0x325;0x326;0x329;0x32A;0x32B;0x32C;0x32D;0x32E;0x32F;0x330;0x331;0x332;0x333;0x339;0x33A;0x33B;0x33C;0x6C;0x347;0x348;0x349;0x34D;0x34E;0x353;0x354;0x355;0x356;0x359;0x35A;0x33E;0x33F;0x342;0x346;0x34A;0x34B;0x34C;0x350;0x351;0x352;0x357;0x35B;0x358;0x35C;0x35F;0x35D;0x35E;0x360;0x345;0x67;0x1E000;0x1E001;0x1E002;0x1E003;0x1E004;0x1E005;0x1E006;0x1E008;0x1E009;0x1E00A;0x1E00B;0x1E00C;0x1E00D;0x1E00E;0x1E00F;0x1E010;0x1E011;0x1E012;0x1E013;0x1E014;0x1E015;0x1E016;0x1E017;0x1E018;0x1E01B;0x1E01C;0x1E01D;0x1E01E;0x1E01F;0x1E020;0x6F;0x8D4;0x8D5;0x8D6;0x8D7;0x8D8;0x8D9;0x8DA;0x8DB;0x8DC;0x8DD;0x8DE;0x8DF;0x8E0;0x8E1;0x8E4;0x8E5;0x8E7;0x8E8;0x8EA;0x8EB;0x8EC;0x8F3;0x8F4;0x8F5;0x8F7;0x8F8;0x8FB;0x8FC;0x8FD;0x8FE;0x2C;0x20;0x75;0x70;0x20;0x74;0x6F;0x20;0x53;0x74;0x72;0x65;0x61;0x6D;0x2D;0x53;0x61;0x66;0x65;0x20;0x6C;0x69;0x6D;0x69;0x74;0x73;0x2E;0xA;0xA;0x41;0x6E;0x64;0x20;0x6F;0x66;0x20;0x63;0x6F;0x75;0x72;0x73;0x65;0x20;0x61;0x6C;0x6C;0x20;0x74;0x68;0x65;0x20;0x72;0x65;0x73;0x74;0x20;0x6F;0x66;0x20;0x64;0x69;0x73;0x70;0x6C;0x61;0x79;0x61;0x62;0x6C;0x65;0x20;0x55;0x6E;0x69;0x63;0x6F;0x64;0x65;0x2C;0x20;0x69;0x6E;0x63;0x6C;0x75;0x64;0x69;0x6E;0x67;0x3A;0xA;0x20;0x2D;0x20;0x5F41;0x1F483;0xF67;0x112F0;0xF90;0xFB5;0xFA8;0xFB3;0xFBA;0xFBC;0xFBB;0xF82;0x1F388;0x1F41E;0x1F469;0x200D;0x2764;0xFE0F;0x200D;0x1F48B;0x200D;0x1F468;0x1F392;0x1F939;0x1F3FE;0x200D;0x2640;0xFE0F;0x25EF;0x200D;0x25EF;0x200D;0x25EF;0x200D;0x25EF;0x200D;0x25EF;0x1F93E;0x1F3FC;0x200D;0x2642;0xFE0F;0x1242B;0x1F46F;0x1F3FE;0x200D;0x2640;0xFE0F;0x12219;0x1F938;0x1F3FD;0x200D;0x2642;0xFE0F;0x2E3B;0x1F6B5;0x1F3FF;0x200D;0x2640;0xFE0F;0x1F3CB;0x1F3FB;0x200D;0x2640;0xFE0F;0x20;0xA9C5;0x1F487;0x1F3FE;0x200D;0x2642;0xFE0F;0x1F441;0xFE0F;0x200D;0x1F5E8;0xFE0F;0x2031;0x2A6A5;0xFDFD;0x265C;0x2685;0x2660;0x26C3;0x2617;0x1F0B1;0x1F093;0x1F021;0x1F0CF;0x25A1;0x1F3B5;0x1F4AB;0x1F38D;0x1F431;0x200D;0x1F3CD;0xA;0x20;0x2D;0x20;0x2581;0x2582;0x2583;0x2584;0x2585;0x2586;0x2587;0x250C;0x2500;0x252C;0x2510;0x2514;0x2500;0x2534;0x2518;0x1F337;0x1F31E;0x21DE;0x1D519;0x283C;0x13111;0x58D;0xA6;0x434;0x1F3B2;0x141B;0x69C;0x1F345;0x1F8AA;0x203D;0x293A;0x2CA8;0x2289;0x2969;0x2A92;0x27CF;0x2B80;0x2734;0x266F;0x2545;0x25C3;0x2BE7;0x291E;0x23EB;0x23C9;0x217B;0x272D;0x2E54;0x26B0;0x20D2;0x249B;0x20ED;0x266C;0x2888;0x2D6A;0x2869;0x2E39;0x20FC;0x2931;0x2454;0x2A7B;0x2A9F;0x291C;0x2950;0x29EF;0x27B3;0x21EB;0x2C1E;0x2EC8;0x2D1A;0x2585;0x243F;0x2BFA;0x259A;0x21A4;0x22EC;0x2845;0x2312;0x205E;0x2619;0x1F9F8;0xA;0x20;0x2D;0x20;0x30;0x5F;0x24;0x7E;0x21;0x40;0x23;0x24;0x25;0x5E;0x26;0x2A;0x28;0x29;0x5F;0x2B;0x60;0x2D;0x3D;0x7B;0x7D;0x7C;0x5B;0x5D;0x5C;0x3A;0x22;0x3B;0x27;0x3C;0x3E;0x3F;0x2C;0x2E;0x2F;0x20;0xA;0x20;0x2D;0x20;0x2400;0x2401;0x2402;0x2403;0x2404;0x2405;0x2406;0x2407;0x2408;0x2409;0x240A;0x240B;0x240C;0x240D;0x240E;0x240F;0x2410;0x2411;0x2412;0x2413;0x2414;0x2415;0x2416;0x2417;0x2418;0x2419;0x241A;0x241B;0x241C;0x241D;0x241E;0x241F;0x2420;0x2421;0xFFF0;0xFFF1;0xFFF2;0xFFF3;0xFFF4;0xFFF5;0xFFF6;0xFFF7;0xFFF8;0x20;0x34F;0x2060;0x20;0x2D7F;0x20;0x1107F;0xFFEF;0xA0;0xAD;0x2060;0x1680;0x2011;0x20;0x20;0x202F;0x2061;0x2062;0x2063;0x2064;0x5A;0x334;0x347;0x32B;0x325;0x32A;0x353;0x348;0x354;0x34E;0x317;0x31E;0x33A;0x32F;0x331;0x31E;0x319;0x331;0x31C;0x316;0x320;0x30F;0x346;0x306;0x35B;0x34C;0x358;0x35E;0x1E01;0x336;0x330;0x333;0x32D;0x359;0x332;0x331;0x339;0x31D;0x34E;0x33C;0x357;0x368;0x30E;0x304;0x306;0x357;0x33F;0x300;0x301;0x35F;0x361;0x6C;0x336;0x337;0x349;0x329;0x339;0x32B;0x31D;0x356;0x319;0x332;0x33C;0x347;0x35A;0x34D;0x32E;0x34E;0x325;0x31E;0x308;0x301;0x34A;0x357;0x366;0x308;0x301;0x36B;0x307;0x301;0x31A;0x345;0x34F;0x345;0x67;0x336;0x355;0x354;0x35A;0x329;0x313;0x310;0x305;0x36E;0x314;0x310;0x30E;0x302;0x30F;0x33E;0x34A;0x30D;0x34B;0x34A;0x367;0x301;0x306;0x366;0x35E;0x6F;0x321;0x34B;0x314;0x350;0x36A;0x369;0x34F;0x322;0x327;0x32B;0x319;0x324;0x32E;0x356;0x359;0x353;0x33A;0x31C;0x329;0x33C;0x318;0x320;0x301;0x115F;0x1160;0x3164;0xFFA0;0x20;0xFE00;0x20;0xFE04;0x20;0xE0100;0x20;0xE01EF;0x20;0x308;0x2424;0x20;0x20;0x2026;0x23CE;0x21B5;0x21A9;0x2324;0x2936;0x21B2;0x2BA8;0x2BB0;0x20;0x308;0x203D;0x308;0x309;0xA;0x20;0x2D;0x20;0x61;0x41;0x2060;0xC5;0xC5;0x1D468;0x1D434;0x1D608;0x1D63C;0x1D400;0x1D4D0;0x1D56C;0x1D5D4;0x1D49C;0x1D504;0x1D538;0x1D5A0;0x1D670;0x1D00;0x1D2C;0x24B6;0xFF21;0x1F110;0x1F130;0x41;0x410;0xA656;0x20;0x2DFC;0x20;0x2DF6;0x2C6F;0x1F150;0x1F170;0x2C2D;0x10402;0x10408;0x104B0;0xC0;0xC1;0xC2;0xC3;0xC4;0x100;0x102;0x104;0x1CD;0x1DE;0x1E0;0x1FA;0x200;0x202;0x226;0x23A;0x4D0;0x4D2;0x7CA;0x20;0x821;0x20;0x822;0x20;0x823;0x824;0x20;0x825;0x904;0x905;0x972;0x985;0xA05;0xA85;0xB05;0xB85;0xC05;0xC85;0xD05;0xE30;0xEB0;0xF01;0xF68;0x20;0xFB8;0x1021;0x1022;0x20;0x109C;0x1161;0x12A0;0x12D0;0x13A0;0x140A;0x15B3;0x16A8;0x16AA;0x16C6;0x1700;0x1720;0x1740;0x1760;0x1820;0x1887;0x20;0x1920;0x1963;0x1A15;0x1A4B;0x20;0x1A61;0x1B83;0x1BC0;0x1BC1;0x1C23;0x1E00;0x1EA0;0x1EA2;0x1EA4;0x1EA6;0x1EA8;0x1EAA;0x1EAC;0x1EAE;0x1EB0;0x1EB2;0x1EB4;0x1EB6;0x3042;0x30A2;0x311A;0x314F;0x320E;0x320F;0x3210;0x3211;0x3212;0x3213;0x3214;0x3215;0x3216;0x3217;0x3218;0x3219;0x321A;0x321B;0x326E;0x326F;0x3270;0x3271;0x3272;0x3273;0x3274;0x3275;0x3276;0x3277;0x3278;0x3279;0x327A;0x327B;0x32D0;0xA00A;0xA4EE;0xA549;0xA6A0;0xA800;0x20;0xA823;0xA85D;0xA882;0x20;0xA8EA;0xA922;0xA946;0xA984;0xAA00;0xFF71;0xFFC2;0x10000;0x10280;0x102A0;0x10300;0x103A0;0x10496;0x10500;0x10740;0x10800;0x10920;0x10980;0x109A0;0x10A00;0x10B00;0x10C00;0x10C01;0x10C80;0x11005;0x11083;0x20;0x11127;0x11150;0x11183;0x11200;0x11280;0x112B0;0x11305;0x20;0x11370;0x11400;0x11481;0x11580;0x11600;0x11680;0x11712;0x20;0x11720;0x118A1;0x11AD5;0x11C00;0x11C8F;0x20;0x11CAF;0x12000;0x169D5;0x16A46;0x16AE7;0x20;0x16F54;0x1BC41;0x1BC64;0x1E823;0x1F1E6;0x2C6D;0x39B;0x2C70;0xAA;0x2200;0x20B3;0x10900;0x2C80;0x10330;0x386;0x391;0x1F08;0x1F09;0x1F0A;0x1F0B;0x1F0C;0x1F0D;0x1F0E;0x1F0F;0x1F88;0x1F89;0x1F8A;0x1F8B;0x1F8C;0x1F8D;0x1F8E;0x1F8F;0x1FB8;0x1FB9;0x1FBA;0x1FBC;0x1D6A8;0x1D6E2;0x1D71C;0x1D756;0x1D790;0x2376;0x237A;0x2A5C;0x15C5;0x13AA;0xA;0x20;0x2D;0x20;0x29;0x2FA;0x2FC;0x145CF;0x1D174;0x1D176;0x1D178;0x1D17A;0x207E;0x208E;0x2769;0x276B;0x27EF;0xFD3F;0xFE36;0xFE5A;0xFF09;0xFF60;0x2773;0x2775;0x27E7;0x27E9;0x27EB;0x27ED;0x2988;0x298A;0x2996;0x2E23;0x2E25;0xFE18;0xFE38;0xFE3A;0xFE3C;0xFE3E;0xFE40;0xFE42;0xFE44;0xFE48;0xFE5C;0xFE5E;0xFF3D;0xFF5D;0xFF63;0xBB;0x2019;0x201D;0x203A;0x276F;0x28;0x2F9;0x2FB;0x145CE;0x1D173;0x1D175;0x1D177;0x1D179;0x207D;0x208D;0x2768;0x276A;0x27EE;0xFD3E;0xFE35;0xFE59;0xFF08;0xFF5F;0x2772;0x2774;0x27E6;0x27E8;0x27EA;0x27EC;0x2987;0x2989;0x2995;0x2E22;0x2E24;0xFE17;0xFE37;0xFE39;0xFE3B;0xFE3D;0xFE3F;0xFE41;0xFE43;0xFE47;0xFE5B;0xFE5D;0xFF3B;0xFF5B;0xFF62;0xAB;0x2018;0x201C;0x2039;0x276E;0x1DA8B;0x1DAA4;0x1DA8B;0xBD;0x2044;0xB73;0xD74;0x2CFD;0xA831;0x10141;0x10175;0x10176;0x109BD;0x10E7B;0xFF02;0x232B;0x2326;0x2408;0x2421;0x20;0x1DFB;0x2190;0x2327;0x2352;0x2354;0x2362;0x236B;0x2426;0x241A;0x3F;0xBF;0x1945;0x3B;0x55E;0x61F;0x1367;0x2047;0x2370;0x2753;0x2754;0x2CFA;0x2CFB;0x2E2E;0x3244;0xA60F;0xA6F7;0xFE16;0xFE56;0xFF1F;0x11143;0x1E95F;0x16844;0x2BD1;0xB6;0x204B;0x700;0x10FB;0x1368;0x3037;0x2761;0x2E0F;0x2E10;0x2E11;0x2E0E;0x2619;0x2E3F;0x3007;0xE5B;0xA66E;0x3D3;0x3D4;0x1E9B;0x2742;0xA;0x20;0x2D;0x20;0x61;0x6E;0x217E;0x2004;0x6C;0x43E;0x74;0x455;0x2008;0x6D;0x43E;0x72;0x435;0x1C3;0xA]].

(** samples/basic-text-invalid.txt (bytes) and basic-text-invalid-converted.txt (scalar values) *)
Definition t_sample : list (list N * list N) := [
([0xCC;0x88;0x20;0x28;0x42;0x61;0x73;0x69;0x63;0x20;0x54;0x65;0x78;0x74;0x20;0x6D;0x75;0x73;0x74;0x20;0x6E;0x6F;0x74;0x20;0x73;0x74;0x61;0x72;0x74;0x20;0x77;0x69;0x74;0x68;0x20;0x61;0x20;0x6E;0x6F;0x6E;0x2D;0x73;0x74;0x61;0x72;0x74;0x65;0x72;0xA;0xA;0x54;0x68;0x69;0x73;0x20;0x66;0x69;0x6C;0x65;0x20;0x63;0x6F;0x6E;0x74;0x61;0x69;0x6E;0x73;0x20;0x69;0x6E;0x76;0x61;0x6C;0x69;0x64;0x20;0x42;0x61;0x73;0x69;0x63;0x20;0x54;0x65;0x78;0x74;0x2E;0xA;0xA;0x49;0x6C;0x6C;0x2D;0x66;0x6F;0x72;0x6D;0x65;0x64;0x20;0x65;0x6E;0x63;0x6F;0x64;0x69;0x6E;0x67;0x73;0x20;0x61;0x72;0x65;0x20;0x72;0x65;0x70;0x6C;0x61;0x63;0x65;0x64;0x20;0x62;0x79;0x20;0x55;0x2B;0x46;0x46;0x46;0x44;0x2E;0xA;0x20;0x2D;0x20;0xC0;0xC1;0xA;0x20;0x2D;0x20;0xFC;0x80;0x80;0x80;0x80;0x80;0xA;0x20;0x2D;0x20;0xFC;0x80;0x80;0x80;0x82;0x80;0xA;0x20;0x2D;0x20;0x80;0xA;0x20;0x2D;0x20;0x80;0x80;0x80;0xA;0x20;0x2D;0x20;0xF0;0x9F;0x92;0xA;0x20;0x2D;0x20;0xFE;0xA;0x20;0x2D;0x20;0xFE;0x80;0xA;0x20;0x2D;0x20;0xFF;0xA;0x20;0x2D;0x20;0xFF;0x80;0xA;0xA;0x4D;0x61;0x6E;0x79;0x20;0x73;0x63;0x61;0x6C;0x61;0x72;0x20;0x76;0x61;0x6C;0x75;0x65;0x73;0x20;0x61;0x72;0x65;0x20;0x73;0x69;0x6D;0x70;0x6C;0x79;0x20;0x72;0x65;0x70;0x6C;0x61;0x63;0x65;0x64;0x20;0x62;0x79;0x20;0x55;0x2B;0x46;0x46;0x46;0x44;0x2C;0x20;0x73;0x75;0x63;0x68;0x20;0x61;0x73;0x20;0xE0;0xA7;0xA4;0xE0;0xA7;0xA4;0xE0;0xA7;0xA5;0xE0;0xA9;0xA4;0xE0;0xA9;0xA5;0xE0;0xAB;0xA4;0xE0;0xAB;0xA5;0xE0;0xAD;0xA4;0xE0;0xAD;0xA5;0xE0;0xAF;0xA4;0xE0;0xAF;0xA5;0xE0;0xB1;0xA4;0xE0;0xB1;0xA5;0xE0;0xB3;0xA4;0xE0;0xB3;0xA5;0xE0;0xB5;0xA4;0xE0;0xB5;0xA5;0xE2;0x81;0xB2;0xE2;0x81;0xB3;0x2E;0xA;0x41;0x6E;0x64;0x20;0xE2;0x8C;0xA9;0xE2;0x8C;0xAA;0xF0;0x9D;0x91;0x95;0xF0;0x9D;0x92;0x9D;0xF0;0x9D;0x92;0xA0;0xF0;0x9D;0x92;0xA1;0xF0;0x9D;0x92;0xA3;0xF0;0x9D;0x92;0xA4;0xF0;0x9D;0x92;0xA7;0xF0;0x9D;0x92;0xA8;0xF0;0x9D;0x92;0xAD;0xF0;0x9D;0x92;0xBA;0xF0;0x9D;0x92;0xBC;0xF0;0x9D;0x93;0x84;0xF0;0x9D;0x94;0x86;0xF0;0x9D;0x94;0x8B;0xF0;0x9D;0x94;0x8C;0xF0;0x9D;0x94;0x95;0xF0;0x9D;0x94;0x9D;0xF0;0x9D;0x94;0xBA;0xF0;0x9D;0x94;0xBF;0xF0;0x9D;0x95;0x85;0xF0;0x9D;0x95;0x87;0xF0;0x9D;0x95;0x88;0xF0;0x9D;0x95;0x89;0xF0;0x9D;0x95;0x91;0x2E;0xA;0xA;0x53;0x6F;0x6D;0x65;0x20;0x63;0x68;0x61;0x72;0x61;0x63;0x74;0x65;0x72;0x73;0x20;0x68;0x61;0x76;0x65;0x20;0x73;0x70;0x65;0x63;0x69;0x66;0x69;0x63;0x20;0x72;0x65;0x70;0x6C;0x61;0x63;0x65;0x6D;0x65;0x6E;0x74;0x73;0x20;0x73;0x75;0x63;0x68;0x20;0x61;0x73;0x20;0xE2;0x84;0xA6;0x2C;0x20;0xE2;0x84;0xAA;0x2C;0x20;0xE2;0x84;0xAB;0x2C;0x20;0xEF;0xAC;0x80;0x2C;0x20;0xEF;0xAC;0x81;0x2C;0x20;0xEF;0xAC;0x82;0x2C;0x20;0xEF;0xAC;0x83;0x2C;0x20;0xEF;0xAC;0x84;0x2C;0x20;0xEF;0xAC;0x85;0x2C;0x20;0x61;0x6E;0x64;0x20;0xEF;0xAC;0x86;0x2E;0xA;0xA;0x43;0x4A;0x4B;0x20;0x43;0x6F;0x6D;0x70;0x61;0x74;0x69;0x62;0x69;0x6C;0x69;0x74;0x79;0x20;0x49;0x64;0x65;0x6F;0x67;0x72;0x61;0x70;0x68;0x73;0x20;0x61;0x72;0x65;0x20;0x63;0x61;0x6E;0x6F;0x6E;0x69;0x63;0x61;0x6C;0x69;0x7A;0x65;0x64;0x20;0x75;0x73;0x69;0x6E;0x67;0x20;0x56;0x61;0x72;0x69;0x61;0x74;0x69;0x6F;0x6E;0x20;0x53;0x65;0x71;0x75;0x65;0x6E;0x63;0x65;0x73;0x3A;0xA;0xA;0xF0;0xAF;0xA1;0xA9;0xEF;0xAA;0x81;0xF0;0xAF;0xA1;0xAA;0xF0;0xAF;0xA1;0xAB;0xEF;0xA8;0x84;0xF0;0xAF;0xA1;0xAD;0xF0;0xAF;0xA1;0xAE;0xEF;0xA5;0x9F;0xEF;0xA6;0xAA;0xF0;0xAF;0xA1;0xAF;0xEF;0xA6;0xBC;0xF0;0xAF;0xA1;0xB0;0xF0;0xAF;0xA1;0xB2;0xF0;0xAF;0xA1;0xB3;0xF0;0xAF;0xA1;0xB5;0xEF;0xA6;0xBD;0xF0;0xAF;0xA1;0xB7;0xEF;0xA5;0x8B;0xEF;0xA8;0xBB;0xEF;0xA7;0x9F;0xEF;0xA8;0xBC;0xF0;0xAF;0xA1;0xB8;0xF0;0xAF;0xA1;0xBA;0xF0;0xAF;0xA1;0xB9;0xEF;0xA7;0x95;0xF0;0xAF;0xA1;0xBC;0xEF;0xA4;0xA1;0xF0;0xAF;0xA1;0xBF;0xF0;0xAF;0xA1;0xBE;0xF0;0xAF;0xA2;0x80;0xF0;0xAF;0xA7;0xB4;0xEF;0xA6;0xAB;0xF0;0xAF;0xA2;0x81;0xF0;0xAF;0xA2;0x82;0xF0;0xAF;0xA2;0x84;0xF0;0xAF;0xA2;0x85;0xF0;0xAF;0xA2;0x86;0xF0;0xAF;0xA2;0x87;0xEF;0xA6;0x8E;0xEF;0xA8;0x81;0xA;0xF0;0xAF;0xA2;0x8B;0xF0;0xAF;0xA2;0x8C;0xF0;0xAF;0xA2;0x8D;0xEF;0xA6;0xA2;0xEF;0xA4;0xA8;0xF0;0xAF;0xA2;0x8E;0xEF;0xAA;0x82;0xEF;0xA8;0x8B;0xEF;0xAA;0x83;0xEF;0xA6;0x82;0xF0;0xAF;0xA2;0x90;0xEF;0xA5;0x83;0xF0;0xAF;0xA2;0x94;0xF0;0xAF;0xA2;0x95;0xF0;0xAF;0xA1;0xB4;0xF0;0xAF;0xA2;0x99;0xEF;0xAA;0x84;0xF0;0xAF;0xA2;0x9A;0xEF;0xA7;0x98;0xF0;0xAF;0xA2;0x9C;0xEF;0xA5;0xA6;0xEF;0xAA;0x85;0xF0;0xAF;0xA2;0x9D;0xF0;0xAF;0xA2;0x9E;0xEF;0xA6;0xA3;0xF0;0xAF;0xA2;0x9F;0xEF;0xA5;0xA0;0xEF;0xA6;0xAC;0xEF;0xA9;0xAB;0xF0;0xAF;0xA2;0xA0;0xEF;0xA8;0xBD;0xF0;0xAF;0xA2;0xA3;0xF0;0xAF;0xA2;0xA5;0xEF;0xAA;0x86;0xEF;0xA6;0xB9;0xEF;0xAA;0x88;0xEF;0xA7;0x99;0xF0;0xAF;0xA2;0xA6;0xF0;0xAF;0xA2;0xA7;0xF0;0xAF;0xA2;0xA9;0xA;0xEF;0xAA;0x87;0xF0;0xAF;0xA2;0xA8;0xEF;0xAA;0x8A;0xEF;0xA8;0xBE;0xF0;0xAF;0xA2;0xAA;0xEF;0xA8;0xBF;0xEF;0xAA;0x89;0xF0;0xAF;0xA2;0xAB;0xEF;0xA6;0x8F;0xF0;0xAF;0xA2;0xAD;0xF0;0xAF;0xA2;0xAE;0xF0;0xAF;0xA2;0xAC;0xF0;0xAF;0xA2;0xAF;0xEF;0xA9;0x80;0xEF;0xAA;0x8B;0xF0;0xAF;0xA2;0xB0;0xEF;0xA4;0x8D;0xF0;0xAF;0xA2;0xB1;0xEF;0xA6;0x90;0xF0;0xAF;0xA2;0xB2;0xF0;0xAF;0xA2;0xB3;0xEF;0xA7;0x92;0xEF;0xAA;0x8C;0xF0;0xAF;0xA2;0xB4;0xF0;0xAF;0xA2;0xB5;0xEF;0xA4;0xA5;0xEF;0xA5;0x9B;0xEF;0xA8;0x82;0xF0;0xAF;0xA2;0xB6;0xF0;0xAF;0xA2;0xBA;0xEF;0xA5;0xB3;0xF0;0xAF;0xA2;0xB9;0xF0;0xAF;0xA2;0xB7;0xF0;0xAF;0xA2;0xBB;0xEF;0xA6;0xA4;0xF0;0xAF;0xA2;0xBC;0xEF;0xA5;0xB5;0xF0;0xAF;0xA3;0x81;0xEF;0xAA;0x8D;0xF0;0xAF;0xA3;0x80;0xA;0xF0;0xAF;0xA2;0xBD;0xEF;0xAA;0x8E;0xF0;0xAF;0xA2;0xBF;0xEF;0xAA;0x8F;0xF0;0xAF;0xA3;0x83;0xF0;0xAF;0xA3;0x86;0xF0;0xAF;0xA3;0x84;0xEF;0xA6;0x91;0xF0;0xAF;0xA3;0x85;0xEF;0xA4;0xB0;0xEF;0xA9;0x81;0xF0;0xAF;0xA3;0x88;0xEF;0xAA;0x90;0xF0;0xAF;0xA3;0x89;0xEF;0xA5;0xA9;0xEF;0xA6;0xBE;0xEF;0xA6;0x83;0xEF;0xA9;0x82;0xF0;0xAF;0xA3;0x8B;0xEF;0xA7;0xA0;0xF0;0xAF;0xA3;0x8D;0xEF;0xA8;0x92;0xEF;0xAA;0x91;0xEF;0xA7;0x85;0xEF;0xA9;0x83;0xF0;0xAF;0xA3;0x8F;0xF0;0xAF;0xA3;0x95;0xEF;0xA8;0x86;0xEF;0xA6;0x8B;0xEF;0xA4;0x81;0xF0;0xAF;0xA3;0x8C;0xF0;0xAF;0xA3;0x94;0xEF;0xA4;0xA9;0xEF;0xAA;0x92;0xF0;0xAF;0xA3;0x98;0xEF;0xAA;0x93;0xF0;0xAF;0xA3;0x99;0xF0;0xAF;0xA3;0x9A;0xEF;0xA7;0xA1;0xF0;0xAF;0xA3;0x9C;0xA;0xEF;0xAA;0x94;0xF0;0xAF;0xA3;0x9B;0xEF;0xA7;0x88;0xF0;0xAF;0xA3;0xA0;0xEF;0xA7;0xB4;0xEF;0xA7;0x89;0xF0;0xAF;0xA3;0x9F;0xEF;0xA7;0x9A;0xF0;0xAF;0xA3;0xA5;0xF0;0xAF;0xA3;0xA1;0xEF;0xA5;0xBA;0xEF;0xA9;0x84;0xF0;0xAF;0xA3;0xA2;0xF0;0xAF;0xA3;0xA4;0xEF;0xA7;0xA2;0xF0;0xAF;0xA3;0xA6;0xF0;0xAF;0xA3;0xA8;0xF0;0xAF;0xA3;0xA9;0xF0;0xAF;0xA3;0xAA;0xEF;0xA4;0x94;0xEF;0xA5;0x9C;0xEF;0xA6;0xBF;0xEF;0xA5;0x8C;0xF0;0xAF;0xA3;0xAB;0xEF;0xA4;0xB1;0xF0;0xAF;0xA3;0xAD;0xEF;0xA4;0x9D;0xF0;0xAF;0xA3;0xAF;0xF0;0xAF;0xA3;0xB1;0xF0;0xAF;0xA3;0xB3;0xEF;0xA6;0x8C;0xEF;0xAA;0x95;0xF0;0xAF;0xA3;0xB4;0xEF;0xA6;0xA5;0xEF;0xA5;0xB0;0xEF;0xAA;0x96;0xF0;0xAF;0xA3;0xB5;0xF0;0xAF;0xA3;0xB6;0xF0;0xAF;0xA3;0xBA;0xF0;0xAF;0xA3;0xBE;0xA;0xEF;0xA5;0xB2;0xF0;0xAF;0xA3;0xBC;0xEF;0xA5;0xA8;0xF0;0xAF;0xA3;0xBD;0xEF;0xA7;0xA3;0xF0;0xAF;0xA3;0xBF;0xEF;0xA4;0x95;0xEF;0xA8;0x85;0xF0;0xAF;0xA4;0x87;0xF0;0xAF;0xA4;0x80;0xEF;0xA7;0x8A;0xEF;0xAA;0x97;0xF0;0xAF;0xA4;0x82;0xF0;0xAF;0xA4;0x83;0xEF;0xA4;0xAA;0xEF;0xA9;0x85;0xF0;0xAF;0xA4;0x81;0xF0;0xAF;0xA4;0x84;0xF0;0xAF;0xA4;0x85;0xEF;0xA7;0xB5;0xEF;0xA5;0x8D;0xEF;0xA7;0x96;0xF0;0xAF;0xA4;0x8E;0xEF;0xA9;0x86;0xF0;0xAF;0xA4;0x88;0xF0;0xAF;0xA4;0x89;0xEF;0xA7;0x8B;0xEF;0xA7;0xAC;0xF0;0xAF;0xA4;0x8C;0xEF;0xAA;0x99;0xF0;0xAF;0xA4;0x8B;0xEF;0xA4;0x84;0xEF;0xAA;0x98;0xEF;0xA5;0x8E;0xEF;0xA9;0x87;0xEF;0xAA;0x9A;0xEF;0xA6;0x92;0xF0;0xAF;0xA4;0x8F;0xF0;0xAF;0xA4;0x92;0xEF;0xA4;0xA2;0xA;0xEF;0xA6;0x84;0xF0;0xAF;0xA4;0x95;0xEF;0xAA;0x9B;0xF0;0xAF;0xA4;0x94;0xF0;0xAF;0xA4;0x93;0xF0;0xAF;0xA4;0x97;0xF0;0xAF;0xA0;0xB5;0xF0;0xAF;0xA4;0x99;0xF0;0xAF;0xA4;0x98;0xEF;0xA7;0xBB;0xF0;0xAF;0xA4;0x9A;0xEF;0xA6;0x9F;0xEF;0xA4;0x96;0xF0;0xAF;0xA4;0x9C;0xEF;0xA6;0x93;0xEF;0xA9;0x88;0xEF;0xAA;0x9C;0xF0;0xAF;0xA4;0x9E;0xEF;0xA7;0x80;0xEF;0xA7;0xAE;0xEF;0xA4;0xB2;0xEF;0xA4;0x9E;0xF0;0xAF;0xA4;0xA0;0xEF;0xA9;0x89;0xEF;0xAA;0x9E;0xF0;0xAF;0xA4;0xA1;0xF0;0xAF;0xA4;0xA2;0xEF;0xA5;0x86;0xF0;0xAF;0xA4;0xA4;0xF0;0xAF;0xA4;0xA5;0xEF;0xAA;0x9F;0xEF;0xA7;0xBA;0xEF;0xA4;0xAB;0xEF;0xA8;0x96;0xEF;0xAA;0xA0;0xEF;0xA6;0xA7;0xF0;0xAF;0xA4;0xA8;0xEF;0xA5;0xA1;0xEF;0xA7;0x9B;0xF0;0xAF;0xA4;0xA9;0xA;0xF0;0xAF;0xA4;0xAB;0xEF;0xA6;0xAD;0xEF;0xA4;0x97;0xEF;0xA7;0xA4;0xEF;0xA7;0x8C;0xEF;0xA9;0x8A;0xF0;0xAF;0xA4;0xAE;0xF0;0xAF;0xA4;0xAF;0xEF;0xA6;0xAE;0xEF;0xAA;0xA1;0xF0;0xAF;0xA4;0xB0;0xF0;0xAF;0xA4;0xB1;0xEF;0xA6;0x94;0xEF;0xA7;0xAF;0xF0;0xAF;0xA4;0xB2;0xEF;0xAA;0xA2;0xF0;0xAF;0xA4;0xB4;0xEF;0xAA;0xA3;0xF0;0xAF;0xA4;0xB6;0xEF;0xA7;0x8D;0xEF;0xA5;0xB6;0xEF;0xA5;0xA2;0xF0;0xAF;0xA4;0xB8;0xEF;0xA7;0xA5;0xF0;0xAF;0xA4;0xBA;0xEF;0xAA;0xA4;0xEF;0xAA;0xA5;0xEF;0xA7;0x81;0xEF;0xA4;0x8E;0xEF;0xA8;0x97;0xEF;0xAA;0xA6;0xEF;0xAA;0xA7;0xEF;0xA4;0xB3;0xEF;0xAA;0xA8;0xF0;0xAF;0xA5;0x80;0xEF;0xA5;0xAD;0xF0;0xAF;0xA5;0x85;0xF0;0xAF;0xA5;0x86;0xF0;0xAF;0xA5;0x87;0xEF;0xAA;0xAA;0xA;0xEF;0xAA;0xA9;0xF0;0xAF;0xA5;0x88;0xF0;0xAF;0xA5;0x8A;0xEF;0xAA;0x9D;0xF0;0xAF;0xA5;0x8E;0xEF;0xA7;0x8E;0xEF;0xA4;0xBB;0xF0;0xAF;0xA5;0x8F;0xEF;0xA9;0x8B;0xEF;0xA5;0x87;0xEF;0xAA;0xAB;0xF0;0xAF;0xA5;0x90;0xEF;0xA5;0xA4;0xEF;0xA6;0x85;0xEF;0xA8;0x98;0xEF;0xA9;0x8C;0xEF;0xA9;0x8E;0xEF;0xA9;0x8D;0xEF;0xA9;0x8F;0xEF;0xA9;0x90;0xF0;0xAF;0xA5;0x93;0xEF;0xA9;0x91;0xEF;0xA8;0x99;0xEF;0xA8;0x9A;0xEF;0xA4;0xBC;0xEF;0xA9;0x92;0xEF;0xA9;0x93;0xEF;0xA8;0x9B;0xF0;0xAF;0xA5;0x96;0xEF;0xA6;0xB6;0xEF;0xA6;0x95;0xF0;0xAF;0xA5;0x97;0xEF;0xA5;0x96;0xEF;0xA9;0x94;0xF0;0xAF;0xA5;0x99;0xF0;0xAF;0xA5;0x9A;0xF0;0xAF;0xA5;0x9B;0xEF;0xA9;0x95;0xEF;0xAA;0xAC;0xEF;0xA7;0xB7;0xA;0xF0;0xAF;0xA5;0x9F;0xEF;0xA7;0xB8;0xEF;0xA9;0x96;0xEF;0xAA;0xAD;0xF0;0xAF;0xA5;0xA2;0xF0;0xAF;0xA5;0xA3;0xEF;0xA6;0xA6;0xEF;0xA5;0x84;0xEF;0xAA;0xAE;0xEF;0xA7;0xB9;0xEF;0xA8;0x9D;0xF0;0xAF;0xA5;0xA6;0xEF;0xA8;0x83;0xF0;0xAF;0xA5;0xA9;0xEF;0xA5;0xBB;0xF0;0xAF;0xA5;0xA8;0xF0;0xAF;0xA5;0xAA;0xEF;0xA7;0x8F;0xEF;0xA5;0xAA;0xEF;0xA5;0x8F;0xEF;0xAA;0xAF;0xF0;0xAF;0xA5;0xAC;0xEF;0xA4;0xBD;0xEF;0xA5;0x97;0xF0;0xAF;0xA5;0xAE;0xEF;0xA6;0x96;0xEF;0xA9;0x97;0xEF;0xAA;0xB0;0xF0;0xAF;0xA5;0xAF;0xEF;0xA9;0x98;0xEF;0xA5;0x90;0xEF;0xA9;0x99;0xF0;0xAF;0xA5;0xB0;0xEF;0xAA;0xB1;0xEF;0xA9;0x9A;0xEF;0xA7;0xA6;0xF0;0xAF;0xA5;0xB6;0xEF;0xA4;0x8F;0xF0;0xAF;0xA5;0xB8;0xEF;0xA6;0xAF;0xA;0xEF;0xA8;0x9E;0xF0;0xAF;0xA5;0xB9;0xEF;0xA4;0xB4;0xEF;0xA9;0x9B;0xEF;0xAA;0xB2;0xF0;0xAF;0xA5;0xBA;0xEF;0xA6;0xB0;0xF0;0xAF;0xA5;0xBD;0xEF;0xA6;0x97;0xF0;0xAF;0xA5;0xBF;0xEF;0xA5;0x85;0xEF;0xA5;0x93;0xF0;0xAF;0xA3;0x96;0xF0;0xAF;0xA6;0x82;0xF0;0xAF;0xA6;0x83;0xF0;0xAF;0xA6;0x85;0xEF;0xA4;0xA6;0xEF;0xA7;0xB6;0xEF;0xA9;0x9C;0xF0;0xAF;0xA2;0x93;0xF0;0xAF;0xA6;0x8B;0xF0;0xAF;0xA6;0x8C;0xEF;0xA9;0xAD;0xEF;0xA5;0xBC;0xEF;0xA9;0x9D;0xEF;0xA9;0x9E;0xF0;0xAF;0xA6;0x90;0xF0;0xAF;0xA6;0x8F;0xF0;0xAF;0xA6;0x91;0xF0;0xAF;0xA6;0x93;0xF0;0xAF;0xA6;0x94;0xF0;0xAF;0xA6;0x95;0xEF;0xA5;0xB4;0xF0;0xAF;0xA6;0x98;0xF0;0xAF;0xA6;0x96;0xF0;0xAF;0xA6;0x99;0xF0;0xAF;0xA6;0x9C;0xEF;0xA7;0xBE;0xEF;0xAA;0xB3;0xF0;0xAF;0xA6;0xA0;0xA;0xF0;0xAF;0xA6;0x9A;0xF0;0xAF;0xA6;0x9B;0xF0;0xAF;0xA6;0x9D;0xEF;0xA4;0xBE;0xF0;0xAF;0xA6;0xA1;0xF0;0xAF;0xA6;0xA2;0xF0;0xAF;0xA6;0xA3;0xF0;0xAF;0xA6;0x9E;0xEF;0xAA;0xB4;0xEF;0xA5;0x98;0xEF;0xA4;0x98;0xEF;0xA5;0xAE;0xEF;0xA9;0x9F;0xF0;0xAF;0xA6;0x9F;0xEF;0xA6;0x99;0xF0;0xAF;0xA6;0xA8;0xF0;0xAF;0xA6;0xA9;0xEF;0xA7;0x82;0xF0;0xAF;0xA6;0xAA;0xF0;0xAF;0xA6;0xAC;0xEF;0xA4;0xA3;0xEF;0xA7;0xB0;0xEF;0xA4;0xB5;0xEF;0xA8;0xA0;0xEF;0xA4;0x9F;0xEF;0xA4;0x90;0xF0;0xAF;0xA6;0xB3;0xEF;0xA4;0xB6;0xF0;0xAF;0xA6;0xB4;0xF0;0xAF;0xA6;0xB5;0xF0;0xAF;0xA6;0xB6;0xF0;0xAF;0xA6;0xB8;0xF0;0xAF;0xA6;0xB7;0xF0;0xAF;0xA6;0xBA;0xF0;0xAF;0xA6;0xB9;0xF0;0xAF;0xA6;0xBC;0xF0;0xAF;0xA6;0xBD;0xEF;0xAA;0xB5;0xF0;0xAF;0xA6;0xBB;0xF0;0xAF;0xA6;0xBE;0xA;0xEF;0xA4;0x91;0xF0;0xAF;0xA7;0x80;0xF0;0xAF;0xA7;0x81;0xEF;0xA4;0xA7;0xEF;0xA8;0x88;0xF0;0xAF;0xA7;0x83;0xF0;0xAF;0xA7;0x84;0xEF;0xA6;0xA0;0xEF;0xA7;0xA7;0xF0;0xAF;0xA7;0x86;0xF0;0xAF;0xA7;0x87;0xEF;0xA7;0xA8;0xEF;0xA4;0x92;0xF0;0xAF;0xA7;0x89;0xEF;0xA9;0xA0;0xEF;0xAA;0xB6;0xEF;0xA4;0xA4;0xEF;0xAA;0xB7;0xEF;0xA8;0x8A;0xEF;0xA9;0xA1;0xEF;0xAA;0xB8;0xF0;0xAF;0xA7;0x8F;0xEF;0xA5;0xAF;0xEF;0xA6;0xA1;0xEF;0xAA;0xB9;0xEF;0xAA;0xBB;0xEF;0xA5;0xBD;0xEF;0xA5;0x81;0xEF;0xAA;0xBE;0xF0;0xAF;0xA7;0x90;0xEF;0xA8;0xA2;0xEF;0xAA;0xBA;0xEF;0xA5;0x9D;0xEF;0xAA;0xBD;0xEF;0xA9;0xA2;0xEF;0xAA;0xBC;0xEF;0xA9;0xA3;0xEF;0xAA;0xBF;0xEF;0xA7;0xBC;0xEF;0xA5;0x9A;0xA;0xEF;0xAB;0x80;0xF0;0xAF;0xA7;0x91;0xEF;0xA4;0x80;0xF0;0xAF;0xA7;0x92;0xF0;0xAF;0xA7;0x94;0xF0;0xAF;0xA7;0x95;0xEF;0xA5;0x88;0xEF;0xA4;0x83;0xEF;0xA9;0xA4;0xEF;0xA9;0xA5;0xEF;0xAB;0x81;0xF0;0xAF;0xA7;0x96;0xF0;0xAF;0xA7;0x97;0xF0;0xAF;0xA7;0x9B;0xF0;0xAF;0xA7;0x9A;0xEF;0xA4;0xB7;0xF0;0xAF;0xA7;0x9C;0xEF;0xA4;0x82;0xF0;0xAF;0xA7;0x9E;0xEF;0xA6;0x98;0xEF;0xA7;0x97;0xEF;0xAB;0x82;0xF0;0xAF;0xA7;0x9F;0xEF;0xA8;0x87;0xEF;0xA6;0x8D;0xF0;0xAF;0xA6;0x8D;0xEF;0xA5;0xB1;0xEF;0xA9;0xA6;0xEF;0xA6;0x9A;0xEF;0xA8;0xA5;0xEF;0xA9;0xA7;0xEF;0xAB;0x83;0xEF;0xA7;0x83;0xEF;0xA4;0x93;0xF0;0xAF;0xA7;0xA2;0xEF;0xA4;0xAC;0xEF;0xA8;0xAE;0xF0;0xAF;0xA7;0xA3;0xEF;0xA8;0xA6;0xF0;0xAF;0xA7;0xA4;0xA;0xF0;0xAF;0xA7;0xA6;0xEF;0xA4;0x99;0xEF;0xAB;0x84;0xEF;0xA6;0xB7;0xEF;0xA7;0xA9;0xEF;0xA5;0xBE;0xEF;0xA4;0x8A;0xEF;0xA6;0xB1;0xF0;0xAF;0xA7;0xA7;0xEF;0xAB;0x85;0xF0;0xAF;0xA7;0xAA;0xF0;0xAF;0xA7;0xA8;0xF0;0xAF;0xA7;0xA9;0xEF;0xA4;0xBF;0xEF;0xA6;0x9B;0xF0;0xAF;0xA7;0xAB;0xF0;0xAF;0xA7;0xAC;0xF0;0xAF;0xA7;0xAE;0xEF;0xA6;0x86;0xF0;0xAF;0xA7;0xB0;0xEF;0xA7;0x86;0xEF;0xA5;0x91;0xEF;0xA8;0x89;0xEF;0xA5;0x99;0xEF;0xA7;0x93;0xEF;0xAB;0x86;0xEF;0xA7;0x9C;0xEF;0xA7;0xB1;0xEF;0xA8;0xAF;0xEF;0xA6;0xB8;0xF0;0xAF;0xA7;0xB3;0xEF;0xA7;0xAA;0xEF;0xA9;0xA8;0xEF;0xAB;0x87;0xEF;0xA6;0xB2;0xEF;0xA5;0x89;0xF0;0xAF;0xA7;0xB5;0xEF;0xA4;0xB8;0xEF;0xA6;0xB3;0xEF;0xA8;0x9C;0xA;0xEF;0xAB;0x88;0xEF;0xAB;0x89;0xF0;0xAF;0xA7;0xBA;0xEF;0xA9;0xA9;0xEF;0xAB;0x8A;0xEF;0xAB;0x8B;0xF0;0xAF;0xA7;0xBE;0xF0;0xAF;0xA7;0xBF;0xEF;0xA6;0xB4;0xF0;0xAF;0xA8;0x80;0xEF;0xA9;0xAA;0xEF;0xAB;0x8C;0xEF;0xA7;0x90;0xF0;0xAF;0xA8;0x82;0xEF;0xA8;0xAA;0xEF;0xA8;0xAB;0xEF;0xA8;0xAC;0xF0;0xAF;0xA8;0x84;0xF0;0xAF;0xA8;0x85;0xF0;0xAF;0xA8;0x86;0xEF;0xA4;0x9A;0xF0;0xAF;0xA8;0x87;0xEF;0xA6;0x87;0xEF;0xAB;0x8D;0xF0;0xAF;0xA8;0x8A;0xEF;0xA4;0xB9;0xF0;0xAF;0xA8;0x8B;0xEF;0xA7;0xB2;0xF0;0xAF;0xA8;0x8C;0xF0;0xAF;0xA8;0x8F;0xEF;0xA8;0xAD;0xEF;0xA4;0xBA;0xEF;0xA4;0xA0;0xEF;0xA5;0x80;0xEF;0xA6;0x88;0xEF;0xA7;0xB3;0xF0;0xAF;0xA8;0x95;0xEF;0xA6;0x89;0xF0;0xAF;0xA8;0x97;0xF0;0xAF;0xA8;0x98;0xA;0xF0;0xAF;0xA8;0x99;0xF0;0xAF;0xA8;0x9A;0xF0;0xAF;0xA8;0x9B;0xF0;0xAF;0xA8;0x9C;0xEF;0xAB;0x98;0xEF;0xA7;0x84;0xEF;0xAB;0x99;0xEF;0xA4;0x87;0xEF;0xA4;0x88;0xEF;0xAB;0x8E;0xF0;0xAF;0xA0;0x83;0xF0;0xAF;0xA0;0x92;0xF0;0xAF;0xA4;0x9B;0xF0;0xAF;0xA0;0x96;0xF0;0xAF;0xA0;0x8D;0xF0;0xAF;0xA7;0x99;0xF0;0xAF;0xA7;0x9D;0xF0;0xAF;0xA0;0xB4;0xF0;0xAF;0xA0;0xB8;0xF0;0xAF;0xA1;0x99;0xF0;0xAF;0xA1;0xA0;0xF0;0xAF;0xA1;0xA1;0xF0;0xAF;0xA1;0xAC;0xF0;0xAF;0xA1;0xB1;0xF0;0xAF;0xA3;0xB8;0xF0;0xAF;0xA1;0xBB;0xF0;0xAF;0xA1;0xBD;0xF0;0xAF;0xA2;0x89;0xF0;0xAF;0xA4;0xB9;0xF0;0xAF;0xA2;0x91;0xF0;0xAF;0xA2;0x92;0xF0;0xAF;0xA2;0xA4;0xEF;0xAB;0x90;0xEF;0xAB;0x8F;0xF0;0xAF;0xA2;0xB8;0xF0;0xAF;0xA2;0xBE;0xF0;0xAF;0xA3;0x8A;0xF0;0xAF;0xA2;0x97;0xF0;0xAF;0xA6;0x80;0xF0;0xAF;0xA6;0x89;0xA;0xF0;0xAF;0xA6;0x8A;0xF0;0xAF;0xA3;0x9D;0xEF;0xAB;0x91;0xF0;0xAF;0xA3;0xA3;0xF0;0xAF;0xA3;0xAC;0xF0;0xAF;0xA3;0xB0;0xF0;0xAF;0xA3;0xB7;0xF0;0xAF;0xA3;0xB9;0xF0;0xAF;0xA3;0xBB;0xF0;0xAF;0xA4;0x86;0xF0;0xAF;0xA4;0x8D;0xF0;0xAF;0xA4;0x90;0xF0;0xAF;0xA4;0x91;0xF0;0xAF;0xA4;0x9D;0xEF;0xA9;0xAC;0xF0;0xAF;0xA4;0x9F;0xF0;0xAF;0xA4;0xA3;0xF0;0xAF;0xA4;0xA6;0xF0;0xAF;0xA4;0xA7;0xF0;0xAF;0xA4;0xB5;0xF0;0xAF;0xA4;0xB7;0xF0;0xAF;0xA4;0xBB;0xF0;0xAF;0xA4;0xBC;0xF0;0xAF;0xA4;0xBD;0xF0;0xAF;0xA5;0x82;0xF0;0xAF;0xA5;0x81;0xF0;0xAF;0xA5;0x83;0xF0;0xAF;0xA5;0x84;0xEF;0xAB;0x95;0xF0;0xAF;0xA5;0x8D;0xF0;0xAF;0xA5;0x92;0xF0;0xAF;0xA5;0x94;0xF0;0xAF;0xA5;0x95;0xF0;0xAF;0xA5;0x9C;0xF0;0xAF;0xA5;0x9D;0xF0;0xAF;0xA5;0x9E;0xF0;0xAF;0xA5;0xA1;0xF0;0xAF;0xA5;0xA5;0xEF;0xAB;0x96;0xF0;0xAF;0xA5;0xAB;0xA;0xF0;0xAF;0xA2;0x98;0xF0;0xAF;0xA5;0xB2;0xF0;0xAF;0xA5;0xB3;0xF0;0xAF;0xA5;0xB5;0xF0;0xAF;0xA5;0xB7;0xF0;0xAF;0xA5;0xBB;0xF0;0xAF;0xA5;0xBC;0xF0;0xAF;0xA5;0xBE;0xF0;0xAF;0xA6;0x87;0xF0;0xAF;0xA6;0x88;0xF0;0xAF;0xA6;0x97;0xF0;0xAF;0xA6;0xA4;0xF0;0xAF;0xA6;0xA6;0xF0;0xAF;0xA6;0xA5;0xF0;0xAF;0xA6;0xAD;0xF0;0xAF;0xA6;0xB0;0xF0;0xAF;0xA6;0xB1;0xF0;0xAF;0xA6;0xAB;0xF0;0xAF;0xA7;0x85;0xF0;0xAF;0xA7;0x8B;0xF0;0xAF;0xA7;0x8C;0xF0;0xAF;0xA7;0x93;0xEF;0xAB;0x97;0xF0;0xAF;0xA7;0x98;0xF0;0xAF;0xA7;0xA0;0xF0;0xAF;0xA7;0xA1;0xF0;0xAF;0xA7;0xA5;0xF0;0xAF;0xA7;0xAD;0xF0;0xAF;0xA7;0xB1;0xF0;0xAF;0xA7;0xB6;0xF0;0xAF;0xA0;0x9C;0xF0;0xAF;0xA7;0xB7;0xF0;0xAF;0xA7;0xBB;0xF0;0xAF;0xA7;0xBD;0xF0;0xAF;0xA8;0x81;0xF0;0xAF;0xA8;0x89;0xF0;0xAF;0xA8;0x90;0xF0;0xAF;0xA8;0x92;0xF0;0xAF;0xA8;0x93;0xF0;0xAF;0xA8;0x94;0xA;0xF0;0xAF;0xA2;0x8F;0xF0;0xAF;0xA8;0x9D;0xA;0xA;0x46;0x6F;0x72;0x20;0x74;0x68;0x65;0x20;0x72;0x65;0x73;0x74;0x2C;0x20;0x4E;0x46;0x43;0x20;0x6E;0x6F;0x72;0x6D;0x61;0x6C;0x69;0x7A;0x61;0x74;0x69;0x6F;0x6E;0x20;0x69;0x73;0x20;0x61;0x70;0x70;0x6C;0x69;0x65;0x64;0x3A;0xA;0x20;0x2D;0x20;0x41;0xCC;0x8A;0xA;0x20;0x2D;0x20;0x41;0xCC;0x8A;0xCC;0x88;0xCC;0x87;0xA;0x20;0x2D;0x20;0xCE;0x87;0xA;0xA;0x5A;0xCC;0x9B;0xCC;0x96;0xCC;0x97;0xCC;0x98;0xCC;0x99;0xCC;0x9C;0xCC;0x9D;0xCC;0x80;0xCC;0x81;0xCC;0x82;0xCC;0x83;0xCC;0x84;0xCC;0x85;0xCC;0x86;0xCC;0x87;0xCC;0x89;0xCC;0x88;0xCC;0x8A;0xCC;0x8B;0xCC;0x8C;0xCC;0x8D;0xCC;0x8E;0xCC;0x8F;0xCC;0x90;0xCC;0x91;0xCC;0x92;0xCC;0x93;0xCC;0x94;0xCC;0x95;0xCC;0x9A;0xCC;0x9E;0x61;0xCC;0xB4;0xCC;0xB5;0xCC;0xB6;0xCC;0xB7;0xCC;0xB8;0xCC;0xA1;0xCC;0xA2;0xCC;0xA7;0xCC;0xA8;0xCC;0x9F;0xCC;0xA0;0xCC;0xA3;0xCC;0xA4;0xCC;0xA5;0xCC;0xA6;0xCC;0xA9;0xCC;0xAA;0xCC;0xAB;0xCC;0xAC;0xCC;0xAD;0xCC;0xAE;0xCC;0xAF;0xCC;0xB0;0xCC;0xB1;0xCC;0xB2;0xCC;0xB3;0xCC;0xB9;0xCC;0xBA;0xCC;0xBB;0xCC;0xBC;0xCC;0xBD;0x6C;0xCD;0x87;0xCD;0x88;0xCD;0x89;0xCD;0x8D;0xCD;0x8E;0xCD;0x93;0xCD;0x94;0xCD;0x95;0xCD;0x96;0xCD;0x99;0xCD;0x9A;0xCC;0xBE;0xCC;0xBF;0xCD;0x82;0xCD;0x86;0xCD;0x8A;0xCD;0x8B;0xCD;0x8C;0xCD;0x90;0xCD;0x91;0xCD;0x92;0xCD;0x97;0xCD;0x9B;0xCD;0x98;0xCD;0x9C;0xCD;0x9F;0xCD;0x9D;0xCD;0x9E;0xCD;0xA0;0xCD;0x85;0xCD;0xA1;0x67;0xF0;0x9E;0x80;0x80;0xF0;0x9E;0x80;0x81;0xF0;0x9E;0x80;0x82;0xF0;0x9E;0x80;0x84;0xF0;0x9E;0x80;0x83;0xF0;0x9E;0x80;0x85;0xF0;0x9E;0x80;0x86;0xF0;0x9E;0x80;0x88;0xF0;0x9E;0x80;0x89;0xF0;0x9E;0x80;0x8A;0xF0;0x9E;0x80;0x8B;0xF0;0x9E;0x80;0x8C;0xF0;0x9E;0x80;0x8D;0xF0;0x9E;0x80;0x8E;0xF0;0x9E;0x80;0x8F;0xF0;0x9E;0x80;0x90;0xF0;0x9E;0x80;0x91;0xF0;0x9E;0x80;0x92;0xF0;0x9E;0x80;0x93;0xF0;0x9E;0x80;0x94;0xF0;0x9E;0x80;0x95;0xF0;0x9E;0x80;0x96;0xF0;0x9E;0x80;0x97;0xF0;0x9E;0x80;0x98;0xF0;0x9E;0x80;0x9B;0xF0;0x9E;0x80;0x9C;0xF0;0x9E;0x80;0x9D;0xF0;0x9E;0x80;0x9E;0xF0;0x9E;0x80;0x9F;0xF0;0x9E;0x80;0xA0;0xF0;0x9E;0x80;0xA1;0x6F;0xE0;0xA3;0x94;0xE0;0xA3;0x95;0xE0;0xA3;0x96;0xE0;0xA3;0x97;0xE0;0xA3;0x98;0xE0;0xA3;0x99;0xE0;0xA3;0x9A;0xE0;0xA3;0x9B;0xE0;0xA3;0x9C;0xE0;0xA3;0x9D;0xE0;0xA3;0x9E;0xE0;0xA3;0x9F;0xE0;0xA3;0xA0;0xE0;0xA3;0xA1;0xE0;0xA3;0xA4;0xE0;0xA3;0xA5;0xE0;0xA3;0xA7;0xE0;0xA3;0xA8;0xE0;0xA3;0xAA;0xE0;0xA3;0xAB;0xE0;0xA3;0xAC;0xE0;0xA3;0xB3;0xE0;0xA3;0xB4;0xE0;0xA3;0xB5;0xE0;0xA3;0xB7;0xE0;0xA3;0xB8;0xE0;0xA3;0xBB;0xE0;0xA3;0xBC;0xE0;0xA3;0xBD;0xE0;0xA3;0xBE;0xE0;0xA3;0xBF;0x20;0x62;0x65;0x79;0x6F;0x6E;0x64;0x20;0x53;0x74;0x72;0x65;0x61;0x6D;0x2D;0x53;0x61;0x66;0x65;0x20;0x6C;0x69;0x6D;0x69;0x74;0x73;0x20;0x69;0x73;0x20;0x62;0x72;0x6F;0x6B;0x65;0x6E;0x20;0x75;0x70;0x20;0x77;0x69;0x74;0x68;0x20;0x43;0x47;0x4A;0x2E;0xA;0xA;0x53;0x74;0x72;0x65;0x61;0x6D;0x2D;0x53;0x61;0x66;0x65;0x20;0x69;0x73;0x20;0x61;0x70;0x70;0x6C;0x69;0x65;0x64;0x20;0x62;0x65;0x66;0x6F;0x72;0x65;0x20;0x4E;0x46;0x43;0x3A;0xA;0x20;0x2D;0x20;0x41;0xEB;0xAE;0xA4;0x24;0xEA;0xA3;0xA4;0x3C;0xEA;0xA3;0x84;0xEA;0xA3;0x84;0xEA;0xA3;0x84;0xEA;0xA3;0x84;0xEA;0xA3;0x84;0xEA;0xA3;0xA4;0xEA;0xA3;0xA4;0xEA;0xA3;0xA4;0xEA;0xA3;0xA4;0xEA;0xA3;0xA4;0xEA;0xA3;0xA4;0xEA;0xA3;0xA4;0xEA;0xA3;0xA4;0xEA;0xA3;0xA4;0xEA;0xA3;0xA4;0xEA;0xA3;0xA4;0xEA;0xA3;0xA4;0xEA;0xA3;0xA4;0xEA;0xA3;0xA4;0xEA;0xA3;0xA4;0xEA;0xA3;0xA4;0xEA;0xA3;0x84;0xEA;0xA3;0xA4;0xEA;0xA3;0xA4;0xEA;0xA3;0xA4;0xEA;0xA3;0x84;0xEA;0xA3;0xA4;0xEA;0xA3;0xA4;0xEA;0xA3;0xA4;0xEA;0xA3;0xA4;0xEA;0xA3;0x84;0xEA;0xA3;0xA4;0xEA;0xA3;0xA4;0xEA;0xA3;0xA4;0xEA;0xA3;0xA4;0x5A;0xA;0xA;0x4D;0x6F;0x73;0x74;0x20;0x63;0x6F;0x6E;0x74;0x72;0x6F;0x6C;0x20;0x63;0x6F;0x64;0x65;0x73;0x20;0x61;0x72;0x65;0x20;0x72;0x65;0x70;0x6C;0x61;0x63;0x65;0x64;0x3A;0xA;0x20;0x2D;0x20;0;1;2;3;4;5;6;7;8;0xB;0xD;0xE;0xF;0x10;0x11;0x12;0x13;0x14;0x15;0x16;0x17;0x18;0x19;0x1A;0x1C;0x1D;0x1E;0x1F;0xA;0x20;0x2D;0x20;0x7F;0xA;0x20;0x2D;0x20;0xC2;0x80;0xC2;0x81;0xC2;0x82;0xC2;0x83;0xC2;0x84;0xC2;0x86;0xC2;0x87;0xC2;0x88;0xC2;0x89;0xC2;0x8A;0xC2;0x8B;0xC2;0x8C;0xC2;0x8D;0xC2;0x8E;0xC2;0x8F;0xA;0x20;0x2D;0x20;0xC2;0x90;0xC2;0x91;0xC2;0x92;0xC2;0x93;0xC2;0x94;0xC2;0x95;0xC2;0x96;0xC2;0x97;0xC2;0x98;0xC2;0x99;0xC2;0x9A;0xC2;0x9B;0xC2;0x9C;0xC2;0x9D;0xC2;0x9E;0xC2;0x9F;0xA;0xA;0x46;0x6F;0x72;0x6D;0xC;0x66;0x65;0x65;0x64;0x20;0x69;0x73;0x20;0x72;0x65;0x70;0x6C;0x61;0x63;0x65;0x64;0x20;0x62;0x79;0x20;0x77;0x68;0x69;0x74;0x65;0x73;0x70;0x61;0x63;0x65;0x2E;0xA;0xA;0x4E;0x65;0x77;0x6C;0x69;0x6E;0x65;0x73;0x20;0x61;0x72;0x65;0x20;0x63;0x61;0x6E;0x6F;0x6E;0x69;0x63;0x61;0x6C;0x69;0x7A;0x65;0x64;0x3A;0xA;0x20;0x2D;0x20;0x4E;0x45;0x4C;0x20;0x69;0x73;0xC2;0x85;0x72;0x65;0x70;0x6C;0x61;0x63;0x65;0x64;0xA;0x20;0x2D;0x20;0x50;0x6C;0x61;0x69;0x6E;0x20;0x43;0x52;0x20;0x69;0x73;0x20;0x74;0x72;0x61;0x6E;0x73;0x6C;0x61;0x74;0x65;0x64;0x20;0x74;0x6F;0x20;0x4E;0x4C;0xD;0x20;0x2D;0x20;0x43;0x52;0x4C;0x46;0x20;0x69;0x73;0x20;0x74;0x72;0x61;0x6E;0x73;0x6C;0x61;0x74;0x65;0x64;0x20;0x74;0x6F;0x20;0x4E;0x4C;0xA;0x20;0x2D;0x20;0x4C;0x53;0xE2;0x80;0xA8;0x61;0x6E;0x64;0x20;0x50;0x53;0xE2;0x80;0xA9;0x20;0x61;0x72;0x65;0x20;0x72;0x65;0x70;0x6C;0x61;0x63;0x65;0x64;0x20;0x62;0x79;0x20;0x77;0x68;0x69;0x74;0x65;0x73;0x70;0x61;0x63;0x65;0x2E;0xA;0xA;0x42;0x61;0x72;0x65;0x20;0x65;0x73;0x63;0x61;0x70;0x65;0x20;0x63;0x6F;0x64;0x65;0x73;0x20;0x61;0x72;0x65;0x20;0x72;0x65;0x70;0x6C;0x61;0x63;0x65;0x64;0x3A;0xA;0x20;0x2D;0x20;0x1B;0xA;0x20;0x2D;0x20;0x1B;0x1B;0xA;0xA;0x57;0x68;0x69;0x6C;0x65;0x20;0x65;0x73;0x63;0x61;0x70;0x65;0x20;0x73;0x65;0x71;0x75;0x65;0x6E;0x63;0x65;0x73;0x20;0x61;0x72;0x65;0x20;0x72;0x65;0x6D;0x6F;0x76;0x65;0x64;0x3A;0xA;0x20;0x2D;0x20;0x1B;0x5B;0x6D;0xA;0x20;0x2D;0x20;0x1B;0x5B;0x5B;0x41;0xA;0x20;0x2D;0x20;0x1B;0x5D;0x68;0x65;0x6C;0x6C;0x6F;0x20;0x77;0x6F;0x72;0x6C;0x64;7;0xA;0xA;0x4E;0x6F;0x6E;0x63;0x68;0x61;0x72;0x61;0x63;0x74;0x65;0x72;0x73;0x20;0x61;0x72;0x65;0x20;0x72;0x65;0x70;0x6C;0x61;0x63;0x65;0x64;0x3A;0xA;0x20;0x2D;0x20;0xEF;0xB7;0x90;0xEF;0xB7;0x91;0xEF;0xB7;0x92;0xEF;0xB7;0x93;0xEF;0xB7;0x94;0xEF;0xB7;0x95;0xEF;0xB7;0x96;0xEF;0xB7;0x97;0xEF;0xB7;0x98;0xEF;0xB7;0x99;0xEF;0xB7;0x9A;0xEF;0xB7;0x9B;0xEF;0xB7;0x9C;0xEF;0xB7;0x9D;0xEF;0xB7;0x9E;0xEF;0xB7;0x9F;0xEF;0xB7;0xA0;0xEF;0xB7;0xA1;0xEF;0xB7;0xA2;0xEF;0xB7;0xA3;0xEF;0xB7;0xA4;0xEF;0xB7;0xA5;0xEF;0xB7;0xA6;0xEF;0xB7;0xA7;0xEF;0xB7;0xA8;0xEF;0xB7;0xA9;0xEF;0xB7;0xAA;0xEF;0xB7;0xAB;0xEF;0xB7;0xAC;0xEF;0xB7;0xAD;0xEF;0xB7;0xAE;0xEF;0xB7;0xAF;0xEF;0xBF;0xB9;0xEF;0xBF;0xBA;0xEF;0xBF;0xBB;0xEF;0xBF;0xBC;0xEF;0xBF;0xBE;0xEF;0xBF;0xBF;0xA;0x20;0x2D;0x20;0xF0;0x9F;0xBF;0xBE;0xF0;0x9F;0xBF;0xBF;0xF0;0xAF;0xBF;0xBE;0xF0;0xAF;0xBF;0xBF;0xF0;0xBF;0xBF;0xBE;0xF0;0xBF;0xBF;0xBF;0xF1;0x8F;0xBF;0xBE;0xF1;0x8F;0xBF;0xBF;0xF1;0x9F;0xBF;0xBE;0xF1;0x9F;0xBF;0xBF;0xF1;0xAF;0xBF;0xBE;0xF1;0xAF;0xBF;0xBF;0xF1;0xBF;0xBF;0xBE;0xF1;0xBF;0xBF;0xBF;0xF2;0x8F;0xBF;0xBE;0xF2;0x8F;0xBF;0xBF;0xF2;0x9F;0xBF;0xBE;0xF2;0x9F;0xBF;0xBF;0xF2;0xAF;0xBF;0xBE;0xF2;0xAF;0xBF;0xBF;0xF2;0xBF;0xBF;0xBE;0xF2;0xBF;0xBF;0xBF;0xF3;0x8F;0xBF;0xBE;0xF3;0x8F;0xBF;0xBF;0xF3;0x9F;0xBF;0xBE;0xF3;0x9F;0xBF;0xBF;0xF3;0xAF;0xBF;0xBE;0xF3;0xAF;0xBF;0xBF;0xF3;0xBF;0xBF;0xBE;0xF3;0xBF;0xBF;0xBF;0xF4;0x8F;0xBF;0xBE;0xF4;0x8F;0xBF;0xBF;0xA;0xA;0x44;0x65;0x70;0x72;0x65;0x63;0x61;0x74;0x65;0x64;0x20;0x61;0x6E;0x64;0x20;0x64;0x69;0x73;0x63;0x6F;0x75;0x72;0x61;0x67;0x65;0x64;0x20;0x76;0x61;0x6C;0x75;0x65;0x73;0x20;0x61;0x72;0x65;0x20;0x72;0x65;0x70;0x6C;0x61;0x63;0x65;0x64;0x3A;0xA;0x20;0x2D;0x20;0xC5;0x89;0xD9;0xB3;0x41;0xE0;0xBD;0xB7;0x41;0xE0;0xBD;0xB9;0xE1;0x9E;0xA3;0xE1;0x9E;0xA4;0xE2;0x80;0xA8;0xE2;0x80;0xA9;0x41;0xE2;0xB7;0xB5;0xF0;0x91;0x87;0x84;0xA;0xA;0x41;0x6E;0x64;0x20;0x42;0x4F;0x4D;0xEF;0xBB;0xBF;0x73;0x20;0x61;0x72;0x65;0x20;0x72;0x65;0x70;0x6C;0x61;0x63;0x65;0x64;0x20;0x77;0x69;0x74;0x68;0x20;0x70;0x6C;0x61;0x69;0x6E;0x20;0x6E;0x6F;0x6E;0x2D;0x62;0x72;0x65;0x61;0x6B;0x69;0x6E;0x67;0x20;0x77;0x68;0x69;0x74;0x65;0x73;0x70;0x61;0x63;0x65;0x2E;0xA;0xA;0x28;0x42;0x61;0x73;0x69;0x63;0x20;0x54;0x65;0x78;0x74;0x20;0x6D;0x75;0x73;0x74;0x20;0x6E;0x6F;0x74;0x20;0x65;0x6E;0x64;0x20;0x77;0x69;0x74;0x68;0x20;0x61;0x20;0x5A;0x57;0x4A;0x2C;0x20;0x61;0x6E;0x64;0x20;0x6D;0x75;0x73;0x74;0x20;0x68;0x61;0x76;0x65;0x20;0x61;0x20;0x74;0x72;0x61;0x69;0x6C;0x69;0x6E;0x67;0x20;0x6E;0x65;0x77;0x6C;0x69;0x6E;0x65;0x29;0x2E;0xE2;0x80;0x8D],[0x34F;0x308;0x20;0x28;0x42;0x61;0x73;0x69;0x63;0x20;0x54;0x65;0x78;0x74;0x20;0x6D;0x75;0x73;0x74;0x20;0x6E;0x6F;0x74;0x20;0x73;0x74;0x61;0x72;0x74;0x20;0x77;0x69;0x74;0x68;0x20;0x61;0x20;0x6E;0x6F;0x6E;0x2D;0x73;0x74;0x61;0x72;0x74;0x65;0x72;0xA;0xA;0x54;0x68;0x69;0x73;0x20;0x66;0x69;0x6C;0x65;0x20;0x63;0x6F;0x6E;0x74;0x61;0x69;0x6E;0x73;0x20;0x69;0x6E;0x76;0x61;0x6C;0x69;0x64;0x20;0x42;0x61;0x73;0x69;0x63;0x20;0x54;0x65;0x78;0x74;0x2E;0xA;0xA;0x49;0x6C;0x6C;0x2D;0x66;0x6F;0x72;0x6D;0x65;0x64;0x20;0x65;0x6E;0x63;0x6F;0x64;0x69;0x6E;0x67;0x73;0x20;0x61;0x72;0x65;0x20;0x72;0x65;0x70;0x6C;0x61;0x63;0x65;0x64;0x20;0x62;0x79;0x20;0x55;0x2B;0x46;0x46;0x46;0x44;0x2E;0xA;0x20;0x2D;0x20;0xFFFD;0xFFFD;0xA;0x20;0x2D;0x20;0xFFFD;0xFFFD;0xFFFD;0xFFFD;0xFFFD;0xFFFD;0xA;0x20;0x2D;0x20;0xFFFD;0xFFFD;0xFFFD;0xFFFD;0xFFFD;0xFFFD;0xA;0x20;0x2D;0x20;0xFFFD;0xA;0x20;0x2D;0x20;0xFFFD;0xFFFD;0xFFFD;0xA;0x20;0x2D;0x20;0xFFFD;0xA;0x20;0x2D;0x20;0xFFFD;0xA;0x20;0x2D;0x20;0xFFFD;0xFFFD;0xA;0x20;0x2D;0x20;0xFFFD;0xA;0x20;0x2D;0x20;0xFFFD;0xFFFD;0xA;0xA;0x4D;0x61;0x6E;0x79;0x20;0x73;0x63;0x61;0x6C;0x61;0x72;0x20;0x76;0x61;0x6C;0x75;0x65;0x73;0x20;0x61;0x72;0x65;0x20;0x73;0x69;0x6D;0x70;0x6C;0x79;0x20;0x72;0x65;0x70;0x6C;0x61;0x63;0x65;0x64;0x20;0x62;0x79;0x20;0x55;0x2B;0x46;0x46;0x46;0x44;0x2C;0x20;0x73;0x75;0x63;0x68;0x20;0x61;0x73;0x20;0xFFFD;0xFFFD;0xFFFD;0xFFFD;0xFFFD;0xFFFD;0xFFFD;0xFFFD;0xFFFD;0xFFFD;0xFFFD;0xFFFD;0xFFFD;0xFFFD;0xFFFD;0xFFFD;0xFFFD;0xFFFD;0xFFFD;0x2E;0xA;0x41;0x6E;0x64;0x20;0xFFFD;0xFFFD;0xFFFD;0xFFFD;0xFFFD;0xFFFD;0xFFFD;0xFFFD;0xFFFD;0xFFFD;0xFFFD;0xFFFD;0xFFFD;0xFFFD;0xFFFD;0xFFFD;0xFFFD;0xFFFD;0xFFFD;0xFFFD;0xFFFD;0xFFFD;0xFFFD;0xFFFD;0xFFFD;0xFFFD;0x2E;0xA;0xA;0x53;0x6F;0x6D;0x65;0x20;0x63;0x68;0x61;0x72;0x61;0x63;0x74;0x65;0x72;0x73;0x20;0x68;0x61;0x76;0x65;0x20;0x73;0x70;0x65;0x63;0x69;0x66;0x69;0x63;0x20;0x72;0x65;0x70;0x6C;0x61;0x63;0x65;0x6D;0x65;0x6E;0x74;0x73;0x20;0x73;0x75;0x63;0x68;0x20;0x61;0x73;0x20;0x3A9;0x2C;0x20;0x4B;0x2C;0x20;0xC5;0x2C;0x20;0x66;0x66;0x2C;0x20;0x66;0x69;0x2C;0x20;0x66;0x6C;0x2C;0x20;0x66;0x66;0x69;0x2C;0x20;0x66;0x66;0x6C;0x2C;0x20;0x17F;0x74;0x2C;0x20;0x61;0x6E;0x64;0x20;0x73;0x74;0x2E;0xA;0xA;0x43;0x4A;0x4B;0x20;0x43;0x6F;0x6D;0x70;0x61;0x74;0x69;0x62;0x69;0x6C;0x69;0x74;0x79;0x20;0x49;0x64;0x65;0x6F;0x67;0x72;0x61;0x70;0x68;0x73;0x20;0x61;0x72;0x65;0x20;0x63;0x61;0x6E;0x6F;0x6E;0x69;0x63;0x61;0x6C;0x69;0x7A;0x65;0x64;0x20;0x75;0x73;0x69;0x6E;0x67;0x20;0x56;0x61;0x72;0x69;0x61;0x74;0x69;0x6F;0x6E;0x20;0x53;0x65;0x71;0x75;0x65;0x6E;0x63;0x65;0x73;0x3A;0xA;0xA;0x5B08;0xFE00;0x5B28;0xFE00;0x5B3E;0xFE00;0x5B3E;0xFE01;0x5B85;0xFE00;0x5BC3;0xFE00;0x5BD8;0xFE00;0x5BE7;0xFE00;0x5BE7;0xFE01;0x5BE7;0xFE02;0x5BEE;0xFE00;0x5BF3;0xFE00;0x5BFF;0xFE00;0x5C06;0xFE00;0x5C22;0xFE00;0x5C3F;0xFE00;0x5C60;0xFE00;0x5C62;0xFE00;0x5C64;0xFE00;0x5C65;0xFE00;0x5C6E;0xFE00;0x5C6E;0xFE01;0x5C8D;0xFE00;0x5CC0;0xFE00;0x5D19;0xFE00;0x5D43;0xFE00;0x5D50;0xFE00;0x5D6B;0xFE00;0x5D6E;0xFE00;0x5D7C;0xFE00;0x5DB2;0xFE00;0x5DBA;0xFE00;0x5DE1;0xFE00;0x5DE2;0xFE00;0x5DFD;0xFE00;0x5E28;0xFE00;0x5E3D;0xFE00;0x5E69;0xFE00;0x5E74;0xFE00;0x5EA6;0xFE00;0xA;0x5EB0;0xFE00;0x5EB3;0xFE00;0x5EB6;0xFE00;0x5EC9;0xFE00;0x5ECA;0xFE00;0x5ECA;0xFE01;0x5ED2;0xFE00;0x5ED3;0xFE00;0x5ED9;0xFE00;0x5EEC;0xFE00;0x5EFE;0xFE00;0x5F04;0xFE00;0x5F22;0xFE00;0x5F22;0xFE01;0x5F53;0xFE00;0x5F62;0xFE00;0x5F69;0xFE00;0x5F6B;0xFE00;0x5F8B;0xFE00;0x5F9A;0xFE00;0x5FA9;0xFE00;0x5FAD;0xFE00;0x5FCD;0xFE00;0x5FD7;0xFE00;0x5FF5;0xFE00;0x5FF9;0xFE00;0x6012;0xFE00;0x601C;0xFE00;0x6075;0xFE00;0x6081;0xFE00;0x6094;0xFE00;0x6094;0xFE01;0x60C7;0xFE00;0x60D8;0xFE00;0x60E1;0xFE00;0x6108;0xFE00;0x6144;0xFE00;0x6148;0xFE00;0x614C;0xFE00;0x614C;0xFE01;0xA;0x614E;0xFE00;0x614E;0xFE01;0x6160;0xFE00;0x6168;0xFE00;0x617A;0xFE00;0x618E;0xFE00;0x618E;0xFE01;0x618E;0xFE02;0x6190;0xFE00;0x61A4;0xFE00;0x61AF;0xFE00;0x61B2;0xFE00;0x61DE;0xFE00;0x61F2;0xFE00;0x61F2;0xFE01;0x61F2;0xFE02;0x61F6;0xFE00;0x61F6;0xFE01;0x6200;0xFE00;0x6210;0xFE00;0x621B;0xFE00;0x622E;0xFE00;0x6234;0xFE00;0x625D;0xFE00;0x62B1;0xFE00;0x62C9;0xFE00;0x62CF;0xFE00;0x62D3;0xFE00;0x62D4;0xFE00;0x62FC;0xFE00;0x62FE;0xFE00;0x633D;0xFE00;0x6350;0xFE00;0x6368;0xFE00;0x637B;0xFE00;0x6383;0xFE00;0x63A0;0xFE00;0x63A9;0xFE00;0x63C4;0xFE00;0x63C5;0xFE00;0xA;0x63E4;0xFE00;0x641C;0xFE00;0x6422;0xFE00;0x6452;0xFE00;0x6469;0xFE00;0x6477;0xFE00;0x647E;0xFE00;0x649A;0xFE00;0x649D;0xFE00;0x64C4;0xFE00;0x654F;0xFE00;0x654F;0xFE01;0x6556;0xFE00;0x656C;0xFE00;0x6578;0xFE00;0x6599;0xFE00;0x65C5;0xFE00;0x65E2;0xFE00;0x65E3;0xFE00;0x6613;0xFE00;0x6649;0xFE00;0x6674;0xFE00;0x6674;0xFE01;0x6688;0xFE00;0x6691;0xFE00;0x6691;0xFE01;0x669C;0xFE00;0x66B4;0xFE00;0x66C6;0xFE00;0x66F4;0xFE00;0x66F8;0xFE00;0x6700;0xFE00;0x6717;0xFE00;0x6717;0xFE01;0x6717;0xFE02;0x671B;0xFE00;0x671B;0xFE01;0x6721;0xFE00;0x674E;0xFE00;0x6753;0xFE00;0xA;0x6756;0xFE00;0x675E;0xFE00;0x677B;0xFE00;0x6785;0xFE00;0x6797;0xFE00;0x67F3;0xFE00;0x67FA;0xFE00;0x6817;0xFE00;0x681F;0xFE00;0x6852;0xFE00;0x6881;0xFE00;0x6885;0xFE00;0x6885;0xFE01;0x688E;0xFE00;0x68A8;0xFE00;0x6914;0xFE00;0x6942;0xFE00;0x69A3;0xFE00;0x69EA;0xFE00;0x6A02;0xFE00;0x6A02;0xFE01;0x6A02;0xFE02;0x6A13;0xFE00;0x6AA8;0xFE00;0x6AD3;0xFE00;0x6ADB;0xFE00;0x6B04;0xFE00;0x6B21;0xFE00;0x6B54;0xFE00;0x6B72;0xFE00;0x6B77;0xFE00;0x6B79;0xFE00;0x6B9F;0xFE00;0x6BAE;0xFE00;0x6BBA;0xFE00;0x6BBA;0xFE01;0x6BBA;0xFE02;0x6BBB;0xFE00;0x6C4E;0xFE00;0x6C67;0xFE00;0xA;0x6C88;0xFE00;0x6CBF;0xFE00;0x6CCC;0xFE00;0x6CCD;0xFE00;0x6CE5;0xFE00;0x6D16;0xFE00;0x6D1B;0xFE00;0x6D1E;0xFE00;0x6D34;0xFE00;0x6D3E;0xFE00;0x6D41;0xFE00;0x6D41;0xFE01;0x6D41;0xFE02;0x6D69;0xFE00;0x6D6A;0xFE00;0x6D77;0xFE00;0x6D77;0xFE01;0x6D78;0xFE00;0x6D85;0xFE00;0x6DCB;0xFE00;0x6DDA;0xFE00;0x6DEA;0xFE00;0x6DF9;0xFE00;0x6E1A;0xFE00;0x6E2F;0xFE00;0x6E6E;0xFE00;0x6E9C;0xFE00;0x6EBA;0xFE00;0x6EC7;0xFE00;0x6ECB;0xFE00;0x6ECB;0xFE01;0x6ED1;0xFE00;0x6EDB;0xFE00;0x6F0F;0xFE00;0x6F22;0xFE00;0x6F22;0xFE01;0x6F23;0xFE00;0x6F6E;0xFE00;0x6FC6;0xFE00;0x6FEB;0xFE00;0xA;0x6FFE;0xFE00;0x701B;0xFE00;0x701E;0xFE00;0x701E;0xFE01;0x7039;0xFE00;0x704A;0xFE00;0x7070;0xFE00;0x7077;0xFE00;0x707D;0xFE00;0x7099;0xFE00;0x70AD;0xFE00;0x70C8;0xFE00;0x70D9;0xFE00;0x7145;0xFE00;0x7149;0xFE00;0x716E;0xFE00;0x716E;0xFE01;0x719C;0xFE00;0x71CE;0xFE00;0x71D0;0xFE00;0x7210;0xFE00;0x721B;0xFE00;0x7228;0xFE00;0x722B;0xFE00;0x7235;0xFE00;0x7235;0xFE01;0x7250;0xFE00;0x7262;0xFE00;0x7280;0xFE00;0x7295;0xFE00;0x72AF;0xFE00;0x72C0;0xFE00;0x72FC;0xFE00;0x732A;0xFE00;0x732A;0xFE01;0x7375;0xFE00;0x737A;0xFE00;0x7387;0xFE00;0x7387;0xFE01;0x738B;0xFE00;0xA;0x73A5;0xFE00;0x73B2;0xFE00;0x73DE;0xFE00;0x7406;0xFE00;0x7409;0xFE00;0x7422;0xFE00;0x7447;0xFE00;0x745C;0xFE00;0x7469;0xFE00;0x7471;0xFE00;0x7471;0xFE01;0x7485;0xFE00;0x7489;0xFE00;0x7498;0xFE00;0x74CA;0xFE00;0x7506;0xFE00;0x7524;0xFE00;0x753B;0xFE00;0x753E;0xFE00;0x7559;0xFE00;0x7565;0xFE00;0x7570;0xFE00;0x7570;0xFE01;0x75E2;0xFE00;0x7610;0xFE00;0x761D;0xFE00;0x761F;0xFE00;0x7642;0xFE00;0x7669;0xFE00;0x76CA;0xFE00;0x76CA;0xFE01;0x76DB;0xFE00;0x76E7;0xFE00;0x76F4;0xFE00;0x76F4;0xFE01;0x7701;0xFE00;0x771E;0xFE00;0x771F;0xFE00;0x771F;0xFE01;0x7740;0xFE00;0xA;0x774A;0xFE00;0x774A;0xFE01;0x778B;0xFE00;0x77A7;0xFE00;0x784E;0xFE00;0x786B;0xFE00;0x788C;0xFE00;0x788C;0xFE01;0x7891;0xFE00;0x78CA;0xFE00;0x78CC;0xFE00;0x78CC;0xFE01;0x78FB;0xFE00;0x792A;0xFE00;0x793C;0xFE00;0x793E;0xFE00;0x7948;0xFE00;0x7949;0xFE00;0x7950;0xFE00;0x7956;0xFE00;0x7956;0xFE01;0x795D;0xFE00;0x795E;0xFE00;0x7965;0xFE00;0x797F;0xFE00;0x798D;0xFE00;0x798E;0xFE00;0x798F;0xFE00;0x798F;0xFE01;0x79AE;0xFE00;0x79CA;0xFE00;0x79EB;0xFE00;0x7A1C;0xFE00;0x7A40;0xFE00;0x7A40;0xFE01;0x7A4A;0xFE00;0x7A4F;0xFE00;0x7A81;0xFE00;0x7AB1;0xFE00;0x7ACB;0xFE00;0xA;0x7AEE;0xFE00;0x7B20;0xFE00;0x7BC0;0xFE00;0x7BC0;0xFE01;0x7BC6;0xFE00;0x7BC9;0xFE00;0x7C3E;0xFE00;0x7C60;0xFE00;0x7C7B;0xFE00;0x7C92;0xFE00;0x7CBE;0xFE00;0x7CD2;0xFE00;0x7CD6;0xFE00;0x7CE3;0xFE00;0x7CE7;0xFE00;0x7CE8;0xFE00;0x7D00;0xFE00;0x7D10;0xFE00;0x7D22;0xFE00;0x7D2F;0xFE00;0x7D5B;0xFE00;0x7D63;0xFE00;0x7DA0;0xFE00;0x7DBE;0xFE00;0x7DC7;0xFE00;0x7DF4;0xFE00;0x7DF4;0xFE01;0x7DF4;0xFE02;0x7E02;0xFE00;0x7E09;0xFE00;0x7E37;0xFE00;0x7E41;0xFE00;0x7E45;0xFE00;0x7F3E;0xFE00;0x7F72;0xFE00;0x7F79;0xFE00;0x7F7A;0xFE00;0x7F85;0xFE00;0x7F95;0xFE00;0x7F9A;0xFE00;0xA;0x7FBD;0xFE00;0x7FFA;0xFE00;0x8001;0xFE00;0x8005;0xFE00;0x8005;0xFE01;0x8005;0xFE02;0x8046;0xFE00;0x8060;0xFE00;0x806F;0xFE00;0x8070;0xFE00;0x807E;0xFE00;0x808B;0xFE00;0x80AD;0xFE00;0x80B2;0xFE00;0x8103;0xFE00;0x813E;0xFE00;0x81D8;0xFE00;0x81E8;0xFE00;0x81ED;0xFE00;0x8201;0xFE00;0x8201;0xFE01;0x8204;0xFE00;0x8218;0xFE00;0x826F;0xFE00;0x8279;0xFE00;0x8279;0xFE01;0x828B;0xFE00;0x8291;0xFE00;0x829D;0xFE00;0x82B1;0xFE00;0x82B3;0xFE00;0x82BD;0xFE00;0x82E5;0xFE00;0x82E5;0xFE01;0x82E6;0xFE00;0x831D;0xFE00;0x8323;0xFE00;0x8336;0xFE00;0x8352;0xFE00;0x8353;0xFE00;0xA;0x8363;0xFE00;0x83AD;0xFE00;0x83BD;0xFE00;0x83C9;0xFE00;0x83CA;0xFE00;0x83CC;0xFE00;0x83DC;0xFE00;0x83E7;0xFE00;0x83EF;0xFE00;0x83F1;0xFE00;0x843D;0xFE00;0x8449;0xFE00;0x8457;0xFE00;0x8457;0xFE01;0x84EE;0xFE00;0x84F1;0xFE00;0x84F3;0xFE00;0x84FC;0xFE00;0x8516;0xFE00;0x8564;0xFE00;0x85CD;0xFE00;0x85FA;0xFE00;0x8606;0xFE00;0x8612;0xFE00;0x862D;0xFE00;0x863F;0xFE00;0x8650;0xFE00;0x865C;0xFE00;0x865C;0xFE01;0x8667;0xFE00;0x8669;0xFE00;0x8688;0xFE00;0x86A9;0xFE00;0x86E2;0xFE00;0x870E;0xFE00;0x8728;0xFE00;0x876B;0xFE00;0x8779;0xFE00;0x8779;0xFE01;0x8786;0xFE00;0xA;0x87BA;0xFE00;0x87E1;0xFE00;0x8801;0xFE00;0x881F;0xFE00;0x884C;0xFE00;0x8860;0xFE00;0x8863;0xFE00;0x88C2;0xFE00;0x88CF;0xFE00;0x88D7;0xFE00;0x88DE;0xFE00;0x88E1;0xFE00;0x88F8;0xFE00;0x88FA;0xFE00;0x8910;0xFE00;0x8941;0xFE00;0x8964;0xFE00;0x8986;0xFE00;0x898B;0xFE00;0x8996;0xFE00;0x8996;0xFE01;0x8AA0;0xFE00;0x8AAA;0xFE00;0x8AAA;0xFE01;0x8ABF;0xFE00;0x8ACB;0xFE00;0x8AD2;0xFE00;0x8AD6;0xFE00;0x8AED;0xFE00;0x8AED;0xFE01;0x8AF8;0xFE00;0x8AF8;0xFE01;0x8AFE;0xFE00;0x8AFE;0xFE01;0x8B01;0xFE00;0x8B01;0xFE01;0x8B39;0xFE00;0x8B39;0xFE01;0x8B58;0xFE00;0x8B80;0xFE00;0xA;0x8B8A;0xFE00;0x8B8A;0xFE01;0x8C48;0xFE00;0x8C55;0xFE00;0x8CAB;0xFE00;0x8CC1;0xFE00;0x8CC2;0xFE00;0x8CC8;0xFE00;0x8CD3;0xFE00;0x8D08;0xFE00;0x8D08;0xFE01;0x8D1B;0xFE00;0x8D77;0xFE00;0x8DBC;0xFE00;0x8DCB;0xFE00;0x8DEF;0xFE00;0x8DF0;0xFE00;0x8ECA;0xFE00;0x8ED4;0xFE00;0x8F26;0xFE00;0x8F2A;0xFE00;0x8F38;0xFE00;0x8F38;0xFE01;0x8F3B;0xFE00;0x8F62;0xFE00;0x8F9E;0xFE00;0x8FB0;0xFE00;0x8FB6;0xFE00;0x9023;0xFE00;0x9038;0xFE00;0x9038;0xFE01;0x9072;0xFE00;0x907C;0xFE00;0x908F;0xFE00;0x9094;0xFE00;0x90CE;0xFE00;0x90DE;0xFE00;0x90F1;0xFE00;0x90FD;0xFE00;0x9111;0xFE00;0xA;0x911B;0xFE00;0x916A;0xFE00;0x9199;0xFE00;0x91B4;0xFE00;0x91CC;0xFE00;0x91CF;0xFE00;0x91D1;0xFE00;0x9234;0xFE00;0x9238;0xFE00;0x9276;0xFE00;0x927C;0xFE00;0x92D7;0xFE00;0x92D8;0xFE00;0x9304;0xFE00;0x934A;0xFE00;0x93F9;0xFE00;0x9415;0xFE00;0x958B;0xFE00;0x95AD;0xFE00;0x95B7;0xFE00;0x962E;0xFE00;0x964B;0xFE00;0x964D;0xFE00;0x9675;0xFE00;0x9678;0xFE00;0x967C;0xFE00;0x9686;0xFE00;0x96A3;0xFE00;0x96B7;0xFE00;0x96B8;0xFE00;0x96C3;0xFE00;0x96E2;0xFE00;0x96E3;0xFE00;0x96E3;0xFE01;0x96F6;0xFE00;0x96F7;0xFE00;0x9723;0xFE00;0x9732;0xFE00;0x9748;0xFE00;0x9756;0xFE00;0xA;0x9756;0xFE01;0x97DB;0xFE00;0x97E0;0xFE00;0x97FF;0xFE00;0x97FF;0xFE01;0x980B;0xFE00;0x980B;0xFE01;0x980B;0xFE02;0x9818;0xFE00;0x9829;0xFE00;0x983B;0xFE00;0x983B;0xFE01;0x985E;0xFE00;0x98E2;0xFE00;0x98EF;0xFE00;0x98FC;0xFE00;0x9928;0xFE00;0x9929;0xFE00;0x99A7;0xFE00;0x99C2;0xFE00;0x99F1;0xFE00;0x99FE;0xFE00;0x9A6A;0xFE00;0x9B12;0xFE00;0x9B12;0xFE01;0x9B6F;0xFE00;0x9C40;0xFE00;0x9C57;0xFE00;0x9CFD;0xFE00;0x9D67;0xFE00;0x9DB4;0xFE00;0x9DFA;0xFE00;0x9E1E;0xFE00;0x9E7F;0xFE00;0x9E97;0xFE00;0x9E9F;0xFE00;0x9EBB;0xFE00;0x9ECE;0xFE00;0x9EF9;0xFE00;0x9EFE;0xFE00;0xA;0x9F05;0xFE00;0x9F0F;0xFE00;0x9F16;0xFE00;0x9F3B;0xFE00;0x9F43;0xFE00;0x9F8D;0xFE00;0x9F8E;0xFE00;0x9F9C;0xFE00;0x9F9C;0xFE01;0x9F9C;0xFE02;0x20122;0xFE00;0x2051C;0xFE00;0x20525;0xFE00;0x2054B;0xFE00;0x2063A;0xFE00;0x20804;0xFE00;0x208DE;0xFE00;0x20A2C;0xFE00;0x20B63;0xFE00;0x214E4;0xFE00;0x216A8;0xFE00;0x216EA;0xFE00;0x219C8;0xFE00;0x21B18;0xFE00;0x21D0B;0xFE00;0x21DE4;0xFE00;0x21DE6;0xFE00;0x22183;0xFE00;0x2219F;0xFE00;0x22331;0xFE00;0x22331;0xFE01;0x226D4;0xFE00;0x22844;0xFE00;0x2284A;0xFE00;0x22B0C;0xFE00;0x22BF1;0xFE00;0x2300A;0xFE00;0x232B8;0xFE00;0x2335F;0xFE00;0x23393;0xFE00;0xA;0x2339C;0xFE00;0x233C3;0xFE00;0x233D5;0xFE00;0x2346D;0xFE00;0x236A3;0xFE00;0x238A7;0xFE00;0x23A8D;0xFE00;0x23AFA;0xFE00;0x23CBC;0xFE00;0x23D1E;0xFE00;0x23ED1;0xFE00;0x23F5E;0xFE00;0x23F8E;0xFE00;0x24263;0xFE00;0x242EE;0xFE00;0x243AB;0xFE00;0x24608;0xFE00;0x24735;0xFE00;0x24814;0xFE00;0x24C36;0xFE00;0x24C92;0xFE00;0x24FA1;0xFE00;0x24FB8;0xFE00;0x25044;0xFE00;0x250F2;0xFE00;0x250F3;0xFE00;0x25119;0xFE00;0x25133;0xFE00;0x25249;0xFE00;0x2541D;0xFE00;0x25626;0xFE00;0x2569A;0xFE00;0x256C5;0xFE00;0x2597C;0xFE00;0x25AA7;0xFE00;0x25AA7;0xFE01;0x25BAB;0xFE00;0x25C80;0xFE00;0x25CD0;0xFE00;0x25F86;0xFE00;0xA;0x261DA;0xFE00;0x26228;0xFE00;0x26247;0xFE00;0x262D9;0xFE00;0x2633E;0xFE00;0x264DA;0xFE00;0x26523;0xFE00;0x265A8;0xFE00;0x267A7;0xFE00;0x267B5;0xFE00;0x26B3C;0xFE00;0x26C36;0xFE00;0x26CD5;0xFE00;0x26D6B;0xFE00;0x26F2C;0xFE00;0x26FB1;0xFE00;0x270D2;0xFE00;0x273CA;0xFE00;0x27667;0xFE00;0x278AE;0xFE00;0x27966;0xFE00;0x27CA8;0xFE00;0x27ED3;0xFE00;0x27F2F;0xFE00;0x285D2;0xFE00;0x285ED;0xFE00;0x2872E;0xFE00;0x28BFA;0xFE00;0x28D77;0xFE00;0x29145;0xFE00;0x291DF;0xFE00;0x2921A;0xFE00;0x2940A;0xFE00;0x29496;0xFE00;0x295B6;0xFE00;0x29B30;0xFE00;0x2A0CE;0xFE00;0x2A105;0xFE00;0x2A20E;0xFE00;0x2A291;0xFE00;0xA;0x2A392;0xFE00;0x2A600;0xFE00;0xA;0xA;0x46;0x6F;0x72;0x20;0x74;0x68;0x65;0x20;0x72;0x65;0x73;0x74;0x2C;0x20;0x4E;0x46;0x43;0x20;0x6E;0x6F;0x72;0x6D;0x61;0x6C;0x69;0x7A;0x61;0x74;0x69;0x6F;0x6E;0x20;0x69;0x73;0x20;0x61;0x70;0x70;0x6C;0x69;0x65;0x64;0x3A;0xA;0x20;0x2D;0x20;0xC5;0xA;0x20;0x2D;0x20;0xC5;0x308;0x307;0xA;0x20;0x2D;0x20;0xB7;0xA;0xA;0x5A;0x31B;0x316;0x317;0x318;0x319;0x31C;0x31D;0x300;0x301;0x302;0x303;0x304;0x305;0x306;0x307;0x309;0x308;0x30A;0x30B;0x30C;0x30D;0x30E;0x30F;0x310;0x311;0x312;0x313;0x314;0x315;0x31A;0x34F;0x31E;0x61;0x334;0x335;0x336;0x337;0x338;0x321;0x322;0x327;0x328;0x31F;0x320;0x323;0x324;0x325;0x326;0x329;0x32A;0x32B;0x32C;0x32D;0x32E;0x32F;0x330;0x331;0x332;0x333;0x339;0x33A;0x33B;0x33C;0x34F;0x33D;0x6C;0x347;0x348;0x349;0x34D;0x34E;0x353;0x354;0x355;0x356;0x359;0x35A;0x33E;0x33F;0x342;0x346;0x34A;0x34B;0x34C;0x350;0x351;0x352;0x357;0x35B;0x358;0x35C;0x35F;0x35D;0x35E;0x360;0x345;0x34F;0x361;0x67;0x1E000;0x1E001;0x1E002;0x1E004;0x1E003;0x1E005;0x1E006;0x1E008;0x1E009;0x1E00A;0x1E00B;0x1E00C;0x1E00D;0x1E00E;0x1E00F;0x1E010;0x1E011;0x1E012;0x1E013;0x1E014;0x1E015;0x1E016;0x1E017;0x1E018;0x1E01B;0x1E01C;0x1E01D;0x1E01E;0x1E01F;0x1E020;0x34F;0x1E021;0x6F;0x8D4;0x8D5;0x8D6;0x8D7;0x8D8;0x8D9;0x8DA;0x8DB;0x8DC;0x8DD;0x8DE;0x8DF;0x8E0;0x8E1;0x8E4;0x8E5;0x8E7;0x8E8;0x8EA;0x8EB;0x8EC;0x8F3;0x8F4;0x8F5;0x8F7;0x8F8;0x8FB;0x8FC;0x8FD;0x8FE;0x34F;0x8FF;0x20;0x62;0x65;0x79;0x6F;0x6E;0x64;0x20;0x53;0x74;0x72;0x65;0x61;0x6D;0x2D;0x53;0x61;0x66;0x65;0x20;0x6C;0x69;0x6D;0x69;0x74;0x73;0x20;0x69;0x73;0x20;0x62;0x72;0x6F;0x6B;0x65;0x6E;0x20;0x75;0x70;0x20;0x77;0x69;0x74;0x68;0x20;0x43;0x47;0x4A;0x2E;0xA;0xA;0x53;0x74;0x72;0x65;0x61;0x6D;0x2D;0x53;0x61;0x66;0x65;0x20;0x69;0x73;0x20;0x61;0x70;0x70;0x6C;0x69;0x65;0x64;0x20;0x62;0x65;0x66;0x6F;0x72;0x65;0x20;0x4E;0x46;0x43;0x3A;0xA;0x20;0x2D;0x20;0x41;0xBBA4;0x24;0xA8E4;0x3C;0xA8C4;0xA8C4;0xA8C4;0xA8C4;0xA8C4;0xA8C4;0xA8C4;0xA8E4;0xA8E4;0xA8E4;0xA8E4;0xA8E4;0xA8E4;0xA8E4;0xA8E4;0xA8E4;0xA8E4;0xA8E4;0xA8E4;0xA8E4;0xA8E4;0xA8E4;0xA8E4;0xA8E4;0xA8E4;0xA8E4;0xA8E4;0xA8E4;0xA8E4;0xA8E4;0x34F;0xA8C4;0xA8E4;0xA8E4;0xA8E4;0xA8E4;0x5A;0xA;0xA;0x4D;0x6F;0x73;0x74;0x20;0x63;0x6F;0x6E;0x74;0x72;0x6F;0x6C;0x20;0x63;0x6F;0x64;0x65;0x73;0x20;0x61;0x72;0x65;0x20;0x72;0x65;0x70;0x6C;0x61;0x63;0x65;0x64;0x3A;0xA;0x20;0x2D;0x20;0xFFFD;0xFFFD;0xFFFD;0xFFFD;0xFFFD;0xFFFD;0xFFFD;0xFFFD;0xFFFD;0xFFFD;0xA;0xFFFD;0xFFFD;0xFFFD;0xFFFD;0xFFFD;0xFFFD;0xFFFD;0xFFFD;0xFFFD;0xFFFD;0xFFFD;0xFFFD;0xFFFD;0xFFFD;0xFFFD;0xFFFD;0xFFFD;0xA;0x20;0x2D;0x20;0xFFFD;0xA;0x20;0x2D;0x20;0xFFFD;0xFFFD;0xFFFD;0xFFFD;0xFFFD;0xFFFD;0xFFFD;0xFFFD;0xFFFD;0xFFFD;0xFFFD;0xFFFD;0xFFFD;0xFFFD;0xFFFD;0xA;0x20;0x2D;0x20;0xFFFD;0xFFFD;0xFFFD;0xFFFD;0xFFFD;0xFFFD;0xFFFD;0xFFFD;0xFFFD;0xFFFD;0xFFFD;0xFFFD;0xFFFD;0xFFFD;0xFFFD;0xFFFD;0xA;0xA;0x46;0x6F;0x72;0x6D;0x20;0x66;0x65;0x65;0x64;0x20;0x69;0x73;0x20;0x72;0x65;0x70;0x6C;0x61;0x63;0x65;0x64;0x20;0x62;0x79;0x20;0x77;0x68;0x69;0x74;0x65;0x73;0x70;0x61;0x63;0x65;0x2E;0xA;0xA;0x4E;0x65;0x77;0x6C;0x69;0x6E;0x65;0x73;0x20;0x61;0x72;0x65;0x20;0x63;0x61;0x6E;0x6F;0x6E;0x69;0x63;0x61;0x6C;0x69;0x7A;0x65;0x64;0x3A;0xA;0x20;0x2D;0x20;0x4E;0x45;0x4C;0x20;0x69;0x73;0x20;0x72;0x65;0x70;0x6C;0x61;0x63;0x65;0x64;0xA;0x20;0x2D;0x20;0x50;0x6C;0x61;0x69;0x6E;0x20;0x43;0x52;0x20;0x69;0x73;0x20;0x74;0x72;0x61;0x6E;0x73;0x6C;0x61;0x74;0x65;0x64;0x20;0x74;0x6F;0x20;0x4E;0x4C;0xA;0x20;0x2D;0x20;0x43;0x52;0x4C;0x46;0x20;0x69;0x73;0x20;0x74;0x72;0x61;0x6E;0x73;0x6C;0x61;0x74;0x65;0x64;0x20;0x74;0x6F;0x20;0x4E;0x4C;0xA;0x20;0x2D;0x20;0x4C;0x53;0x20;0x61;0x6E;0x64;0x20;0x50;0x53;0x20;0x20;0x61;0x72;0x65;0x20;0x72;0x65;0x70;0x6C;0x61;0x63;0x65;0x64;0x20;0x62;0x79;0x20;0x77;0x68;0x69;0x74;0x65;0x73;0x70;0x61;0x63;0x65;0x2E;0xA;0xA;0x42;0x61;0x72;0x65;0x20;0x65;0x73;0x63;0x61;0x70;0x65;0x20;0x63;0x6F;0x64;0x65;0x73;0x20;0x61;0x72;0x65;0x20;0x72;0x65;0x70;0x6C;0x61;0x63;0x65;0x64;0x3A;0xA;0x20;0x2D;0x20;0xA;0x20;0x2D;0x20;0xA;0xA;0x57;0x68;0x69;0x6C;0x65;0x20;0x65;0x73;0x63;0x61;0x70;0x65;0x20;0x73;0x65;0x71;0x75;0x65;0x6E;0x63;0x65;0x73;0x20;0x61;0x72;0x65;0x20;0x72;0x65;0x6D;0x6F;0x76;0x65;0x64;0x3A;0xA;0x20;0x2D;0x20;0xA;0x20;0x2D;0x20;0xA;0x20;0x2D;0x20;0xA;0xA;0x4E;0x6F;0x6E;0x63;0x68;0x61;0x72;0x61;0x63;0x74;0x65;0x72;0x73;0x20;0x61;0x72;0x65;0x20;0x72;0x65;0x70;0x6C;0x61;0x63;0x65;0x64;0x3A;0xA;0x20;0x2D;0x20;0xFFFD;0xFFFD;0xFFFD;0xFFFD;0xFFFD;0xFFFD;0xFFFD;0xFFFD;0xFFFD;0xFFFD;0xFFFD;0xFFFD;0xFFFD;0xFFFD;0xFFFD;0xFFFD;0xFFFD;0xFFFD;0xFFFD;0xFFFD;0xFFFD;0xFFFD;0xFFFD;0xFFFD;0xFFFD;0xFFFD;0xFFFD;0xFFFD;0xFFFD;0xFFFD;0xFFFD;0xFFFD;0xFFFD;0xFFFD;0xFFFD;0xFFFD;0xFFFD;0xFFFD;0xA;0x20;0x2D;0x20;0xFFFD;0xFFFD;0xFFFD;0xFFFD;0xFFFD;0xFFFD;0xFFFD;0xFFFD;0xFFFD;0xFFFD;0xFFFD;0xFFFD;0xFFFD;0xFFFD;0xFFFD;0xFFFD;0xFFFD;0xFFFD;0xFFFD;0xFFFD;0xFFFD;0xFFFD;0xFFFD;0xFFFD;0xFFFD;0xFFFD;0xFFFD;0xFFFD;0xFFFD;0xFFFD;0xFFFD;0xFFFD;0xA;0xA;0x44;0x65;0x70;0x72;0x65;0x63;0x61;0x74;0x65;0x64;0x20;0x61;0x6E;0x64;0x20;0x64;0x69;0x73;0x63;0x6F;0x75;0x72;0x61;0x67;0x65;0x64;0x20;0x76;0x61;0x6C;0x75;0x65;0x73;0x20;0x61;0x72;0x65;0x20;0x72;0x65;0x70;0x6C;0x61;0x63;0x65;0x64;0x3A;0xA;0x20;0x2D;0x20;0x2BC;0x6E;0x627;0x65F;0x41;0xFB2;0xF71;0xF80;0x41;0xFB3;0xF71;0xF80;0x17A2;0x17A2;0x17B6;0x20;0x20;0x41;0x2DED;0x2DEE;0x1118F;0x11180;0xA;0xA;0x41;0x6E;0x64;0x20;0x42;0x4F;0x4D;0x2060;0x73;0x20;0x61;0x72;0x65;0x20;0x72;0x65;0x70;0x6C;0x61;0x63;0x65;0x64;0x20;0x77;0x69;0x74;0x68;0x20;0x70;0x6C;0x61;0x69;0x6E;0x20;0x6E;0x6F;0x6E;0x2D;0x62;0x72;0x65;0x61;0x6B;0x69;0x6E;0x67;0x20;0x77;0x68;0x69;0x74;0x65;0x73;0x70;0x61;0x63;0x65;0x2E;0xA;0xA;0x28;0x42;0x61;0x73;0x69;0x63;0x20;0x54;0x65;0x78;0x74;0x20;0x6D;0x75;0x73;0x74;0x20;0x6E;0x6F;0x74;0x20;0x65;0x6E;0x64;0x20;0x77;0x69;0x74;0x68;0x20;0x61;0x20;0x5A;0x57;0x4A;0x2C;0x20;0x61;0x6E;0x64;0x20;0x6D;0x75;0x73;0x74;0x20;0x68;0x61;0x76;0x65;0x20;0x61;0x20;0x74;0x72;0x61;0x69;0x6C;0x69;0x6E;0x67;0x20;0x6E;0x65;0x77;0x6C;0x69;0x6E;0x65;0x29;0x2E;0x200D;0x34F;0xA])].
