(** The assertions of the documentation examples and unit tests in
    src/extended_capabilities.rs and src/extended_capabilities/, evaluated on the model. They test that
    the model agrees with the program on the inputs its authors chose; they are
    examples, not proofs of properties. Each [assert_eq!] becomes one [Example];
    the comment gives the file and line of the example or test.
    An [unwrap] becomes [= Ok _], a [collect] becomes [first_items]. The data
    retained by a decoder is the byte list itself. *)

From Verif Require Import Base Spec.
From Verif Require Import M_Common.
From Verif Require M_ExtCaps M_ExtDvsec M_ExtErr M_ExtMfvc M_ExtMid M_ExtRcld M_ExtSmall M_ExtVc M_ExtVec M_Header M_Pcie.

(* tests/data/device/8086_2030/config *)
Definition config_8086_2030 : list N :=
  [134; 128; 48; 32; 71; 5; 16; 0; 4; 0; 4; 6; 0; 0; 1; 0; 0; 0; 0; 0; 0; 0; 0; 0; 174; 175; 175;
    0; 240; 0; 0; 32; 160; 225; 160; 225; 1; 225; 129; 225; 0; 0; 0; 0; 0; 0; 0; 0; 0; 0; 0; 0;
    64; 0; 0; 0; 0; 0; 0; 0; 255; 1; 3; 0; 13; 96; 0; 0; 134; 128; 0; 0; 0; 0; 0; 0; 0; 0; 0; 0;
    0; 0; 0; 0; 0; 0; 0; 0; 0; 0; 0; 0; 0; 0; 0; 0; 5; 144; 3; 1; 56; 0; 224; 254; 0; 0; 0; 0; 2;
    0; 0; 0; 0; 0; 0; 0; 0; 0; 0; 0; 0; 0; 0; 0; 0; 0; 0; 0; 0; 0; 0; 0; 0; 0; 0; 0; 0; 0; 0; 0;
    0; 0; 0; 0; 16; 224; 66; 1; 33; 128; 0; 0; 36; 1; 0; 0; 3; 57; 122; 5; 64; 0; 67; 48; 128;
    37; 32; 0; 192; 3; 72; 1; 30; 0; 1; 0; 0; 0; 0; 0; 190; 19; 0; 0; 38; 0; 0; 0; 14; 0; 0; 0;
    67; 0; 31; 0; 0; 0; 0; 0; 0; 0; 0; 0; 0; 0; 0; 0; 0; 0; 0; 0; 16; 0; 0; 0; 0; 0; 0; 0; 0; 0;
    0; 0; 1; 0; 3; 200; 8; 0; 0; 0; 0; 0; 0; 0; 0; 0; 0; 0; 0; 0; 0; 0; 0; 0; 0; 0; 0; 0; 0; 0;
    0; 0; 0; 0; 11; 0; 1; 17; 2; 0; 192; 0; 7; 56; 0; 0; 0; 0; 0; 0; 13; 0; 129; 20; 31; 0; 0; 0;
    0; 0; 0; 0; 0; 0; 0; 0; 0; 0; 0; 0; 0; 0; 0; 0; 0; 0; 0; 0; 0; 0; 0; 0; 0; 0; 0; 0; 0; 0; 0;
    0; 0; 0; 0; 0; 0; 0; 0; 0; 0; 0; 0; 0; 0; 0; 0; 0; 1; 0; 1; 29; 0; 0; 0; 0; 0; 0; 49; 0; 48;
    240; 14; 0; 0; 0; 0; 0; 193; 49; 0; 0; 224; 1; 0; 0; 0; 0; 0; 0; 0; 0; 0; 0; 0; 0; 0; 0; 0;
    0; 0; 0; 0; 0; 0; 0; 0; 0; 0; 0; 0; 0; 0; 0; 145; 48; 24; 0; 0; 32; 0; 0; 80; 0; 16; 228; 12;
    0; 0; 0; 12; 0; 0; 0; 0; 0; 0; 0; 0; 0; 0; 0; 0; 0; 0; 0; 0; 0; 0; 0; 0; 0; 0; 0; 0; 0; 0; 0;
    0; 0; 0; 0; 0; 0; 0; 0; 0; 0; 0; 0; 0; 0; 0; 0; 0; 0; 0; 0; 0; 0; 0; 0; 0; 0; 0; 0; 0; 0; 0;
    0; 0; 0; 0; 0; 11; 0; 1; 37; 3; 0; 161; 0; 1; 0; 0; 0; 0; 0; 0; 0; 0; 0; 0; 0; 0; 0; 0; 0; 0;
    0; 0; 0; 0; 0; 0; 0; 0; 0; 0; 0; 0; 0; 0; 0; 0; 0; 0; 0; 0; 0; 0; 0; 0; 0; 0; 0; 1; 0; 0; 0;
    0; 0; 0; 0; 112; 0; 0; 0; 2; 2; 0; 0; 6; 0; 0; 0; 0; 0; 0; 0; 193; 49; 0; 0; 0; 0; 0; 0; 112;
    0; 0; 0; 1; 0; 0; 0; 0; 0; 0; 0; 0; 0; 0; 0; 0; 0; 0; 0; 0; 0; 0; 0; 0; 0; 0; 0; 0; 0; 0; 0;
    0; 0; 0; 0; 0; 0; 0; 0; 0; 0; 0; 0; 25; 0; 1; 40; 0; 0; 0; 0; 0; 0; 0; 0; 120; 39; 120; 39;
    120; 39; 120; 39; 120; 39; 120; 39; 120; 39; 120; 39; 120; 39; 120; 39; 120; 39; 120; 39;
    120; 39; 120; 39; 120; 39; 120; 39; 0; 0; 0; 0; 11; 0; 129; 41; 5; 0; 131; 1; 5; 0; 0; 64;
    48; 224; 63; 0; 120; 0; 0; 0; 96; 0; 0; 0; 11; 0; 1; 48; 7; 0; 64; 2; 0; 0; 0; 0; 1; 0; 0; 0;
    199; 63; 7; 0; 0; 0; 0; 10; 4; 32; 0; 175; 0; 0; 0; 174; 0; 0; 0; 0; 0; 0; 0; 0; 0; 0; 0; 0;
    0; 0; 0; 0; 0; 0; 0; 0; 0; 0; 0; 0; 0; 0; 0; 0; 0; 0; 0; 0; 0; 0; 0; 0; 0; 0; 0; 0; 0; 0; 0;
    0; 0; 0; 0; 0; 0; 0; 0; 0; 0; 0; 0; 0; 0; 0; 0; 0; 0; 0; 0; 0; 0; 0; 0; 0; 0; 0; 0; 0; 11; 0;
    1; 0; 8; 0; 128; 3; 0; 0; 0; 0; 15; 0; 0; 0; 0; 0; 0; 0; 0; 0; 0; 0; 0; 0; 0; 0; 0; 0; 0; 0;
    0; 0; 0; 0; 0; 0; 0; 0; 0; 0; 0; 0; 0; 0; 0; 0; 0; 0; 0; 0; 0; 0; 0; 0; 0; 0; 0; 0; 0; 0; 0;
    0; 0; 0; 0; 0; 0; 0; 0; 0; 0; 0; 0; 0; 0; 0; 0; 0; 0; 0; 0; 0; 0; 0; 0; 0; 0; 0; 0; 0; 0; 0;
    0; 0; 0; 0; 0; 0; 0; 0; 0; 0; 0; 0; 0; 0; 0; 0; 0; 0; 0; 0; 0; 0; 0; 0; 0; 0; 0; 0; 0; 0; 0;
    0; 0; 0; 0; 0; 0; 0; 0; 0; 0; 0; 0; 0; 0; 0; 0; 0; 0; 0; 0; 0; 0; 0; 0; 0; 0; 0; 0; 0; 0; 0;
    0; 0; 0; 0; 0; 0; 0; 0; 0; 0; 0; 0; 0; 0; 0; 0; 0; 0; 0; 0; 0; 0; 0; 0; 0; 0; 0; 0; 0; 0; 0;
    0; 0; 0; 0; 0; 0; 0; 0; 0; 0; 0; 0; 0; 0; 0; 0; 0; 0; 0; 0; 0; 0; 0; 0; 0; 0; 0; 0; 0; 0; 0;
    0; 0; 0; 0; 0; 0; 0; 0; 0; 0; 0; 0; 0; 0; 0; 0; 0; 0; 0; 0; 0; 0; 0; 0; 0; 0; 0; 0; 0; 0; 0;
    0; 0; 0; 0; 0; 0; 0; 25; 3; 0; 0; 0; 0; 0; 0; 0; 0; 0; 0; 0; 0; 0; 0; 0; 0; 0; 0; 0; 0; 0; 0;
    0; 0; 0; 0; 0; 0; 0; 0; 0; 0; 0; 0; 0; 0; 0; 0; 0; 0; 0; 0; 0; 0; 0; 0; 0; 0; 0; 0; 0; 0; 0;
    0; 0; 0; 0; 0; 0; 0; 0; 0; 0; 0; 0; 0; 0; 0; 0; 0; 0; 0; 0; 0; 0; 0; 0; 0; 0; 0; 0; 0; 0; 0;
    0; 0; 0; 0; 0; 0; 0; 0; 0; 0; 0; 0; 0; 0; 0; 0; 0; 0; 0; 0; 0; 0; 0; 0; 0; 0; 0; 0; 0; 0; 0;
    0; 0; 0; 0; 0; 0; 0; 0; 0; 0; 0; 0; 0; 0; 0; 0; 0; 0; 0; 255; 255; 255; 255; 255; 255; 255;
    255; 0; 0; 15; 15; 0; 0; 0; 0; 0; 0; 0; 0; 0; 0; 0; 0; 0; 0; 0; 0; 0; 0; 0; 0; 0; 0; 0; 0; 0;
    0; 0; 0; 0; 0; 0; 0; 0; 0; 0; 0; 0; 0; 0; 0; 0; 0; 0; 0; 253; 0; 0; 0; 0; 0; 0; 0; 0; 0; 0;
    0; 0; 0; 0; 0; 0; 0; 0; 0; 0; 0; 0; 0; 0; 0; 0; 0; 0; 0; 0; 0; 0; 0; 0; 0; 0; 0; 0; 0; 0; 0;
    0; 0; 0; 0; 0; 0; 0; 0; 0; 0; 0; 0; 0; 0; 0; 0; 0; 0; 0; 0; 0; 0; 0; 0; 0; 0; 0; 0; 0; 0; 0;
    0; 0; 0; 0; 0; 0; 0; 0; 0; 0; 0; 0; 0; 0; 0; 0; 0; 0; 0; 0; 0; 0; 0; 0; 0; 0; 0; 0; 0; 0; 0;
    0; 0; 0; 0; 0; 0; 0; 0; 0; 0; 0; 0; 0; 0; 0; 0; 0; 0; 0; 0; 0; 0; 0; 0; 0; 0; 0; 0; 0; 0; 0;
    0; 0; 0; 0; 0; 0; 0; 0; 0; 0; 0; 0; 0; 0; 0; 0; 0; 0; 0; 0; 0; 0; 0; 0; 0; 0; 0; 0; 0; 0; 0;
    0; 0; 0; 0; 0; 0; 0; 0; 0; 0; 0; 0; 0; 0; 0; 0; 0; 0; 0; 0; 0; 0; 0; 0; 0; 0; 0; 0; 0; 0; 0;
    0; 0; 0; 0; 0; 0; 0; 0; 0; 0; 0; 0; 0; 0; 0; 0; 0; 0; 0; 0; 0; 0; 0; 0; 0; 0; 0; 0; 0; 0; 0;
    0; 0; 0; 0; 0; 0; 0; 0; 0; 0; 0; 0; 0; 0; 0; 0; 0; 0; 0; 0; 0; 0; 0; 0; 0; 0; 0; 0; 0; 0; 0;
    0; 0; 0; 0; 0; 0; 0; 0; 0; 0; 0; 0; 0; 0; 0; 0; 0; 0; 0; 0; 0; 0; 0; 0; 0; 0; 0; 0; 0; 0; 0;
    0; 0; 0; 0; 0; 0; 0; 0; 0; 0; 0; 0; 0; 0; 0; 0; 0; 0; 0; 0; 0; 0; 0; 0; 0; 0; 0; 0; 0; 0; 0;
    0; 0; 0; 0; 0; 0; 0; 0; 0; 0; 0; 0; 0; 0; 0; 0; 0; 0; 0; 0; 0; 0; 0; 0; 0; 0; 0; 0; 0; 0; 0;
    0; 0; 0; 0; 0; 0; 0; 0; 0; 0; 0; 0; 0; 0; 0; 0; 0; 0; 0; 0; 0; 0; 0; 0; 0; 0; 0; 0; 0; 0; 0;
    0; 0; 0; 0; 0; 0; 0; 0; 0; 0; 0; 0; 0; 0; 0; 0; 0; 0; 0; 0; 0; 0; 0; 0; 0; 0; 0; 0; 0; 0; 0;
    0; 0; 0; 0; 0; 0; 0; 0; 0; 0; 0; 0; 0; 0; 0; 0; 0; 0; 0; 0; 0; 0; 0; 0; 0; 0; 0; 0; 0; 0; 0;
    0; 0; 0; 0; 0; 0; 0; 0; 0; 0; 0; 0; 0; 0; 0; 0; 0; 0; 0; 0; 0; 0; 0; 0; 0; 0; 0; 0; 0; 0; 0;
    0; 0; 0; 0; 0; 0; 0; 0; 0; 0; 0; 0; 0; 0; 0; 0; 0; 0; 0; 0; 0; 0; 0; 0; 0; 0; 0; 0; 0; 0; 0;
    0; 0; 0; 0; 0; 0; 0; 0; 0; 0; 0; 0; 0; 0; 0; 0; 0; 0; 0; 0; 0; 0; 0; 0; 0; 0; 0; 0; 0; 0; 0;
    0; 0; 0; 0; 0; 0; 0; 0; 0; 0; 0; 0; 0; 0; 0; 0; 0; 0; 0; 0; 0; 0; 0; 0; 0; 0; 0; 0; 0; 0; 0;
    0; 0; 0; 0; 0; 0; 0; 0; 0; 0; 0; 0; 0; 0; 0; 0; 0; 0; 0; 0; 0; 0; 0; 0; 0; 0; 0; 0; 0; 0; 0;
    0; 0; 0; 0; 0; 0; 0; 0; 0; 0; 0; 0; 0; 0; 0; 0; 0; 0; 0; 0; 0; 0; 0; 0; 0; 0; 0; 0; 0; 0; 0;
    0; 0; 0; 0; 0; 0; 0; 0; 0; 0; 0; 0; 0; 0; 0; 0; 0; 0; 0; 0; 0; 0; 0; 0; 0; 0; 0; 0; 0; 0; 0;
    0; 0; 0; 0; 0; 0; 0; 0; 0; 0; 0; 0; 0; 0; 0; 0; 0; 0; 0; 0; 0; 0; 0; 0; 0; 0; 0; 0; 0; 0; 0;
    0; 0; 0; 0; 0; 0; 0; 0; 0; 0; 0; 0; 0; 0; 0; 0; 0; 0; 0; 0; 0; 0; 0; 0; 0; 0; 0; 0; 0; 0; 0;
    0; 0; 0; 0; 0; 0; 0; 0; 0; 0; 0; 0; 0; 0; 0; 0; 0; 0; 0; 0; 0; 0; 0; 0; 0; 0; 0; 0; 0; 0; 0;
    0; 0; 0; 0; 0; 0; 0; 0; 0; 0; 0; 0; 0; 0; 0; 0; 0; 0; 0; 0; 0; 0; 0; 0; 0; 0; 0; 0; 0; 0; 0;
    0; 0; 0; 0; 0; 0; 0; 0; 0; 0; 0; 0; 0; 0; 0; 0; 0; 0; 0; 0; 0; 0; 0; 0; 0; 0; 0; 0; 0; 0; 0;
    0; 0; 0; 0; 0; 0; 0; 0; 0; 0; 0; 0; 0; 0; 0; 0; 0; 0; 0; 0; 0; 0; 0; 0; 0; 0; 0; 0; 0; 0; 0;
    0; 0; 0; 0; 0; 0; 0; 0; 0; 0; 0; 0; 0; 0; 0; 0; 0; 0; 0; 0; 0; 0; 0; 0; 0; 0; 0; 0; 0; 0; 0;
    0; 0; 0; 0; 0; 0; 0; 0; 0; 0; 0; 0; 0; 0; 0; 0; 0; 0; 0; 0; 0; 0; 0; 0; 0; 0; 0; 0; 0; 0; 0;
    0; 0; 0; 0; 0; 0; 0; 0; 0; 0; 0; 0; 0; 0; 0; 0; 0; 0; 0; 0; 0; 0; 0; 0; 0; 0; 0; 0; 0; 0; 0;
    0; 0; 0; 0; 0; 0; 0; 0; 0; 0; 0; 0; 0; 0; 0; 0; 0; 0; 0; 0; 0; 0; 0; 0; 0; 0; 0; 0; 0; 0; 0;
    0; 0; 0; 0; 0; 0; 0; 0; 0; 0; 0; 0; 0; 0; 0; 0; 0; 0; 0; 0; 0; 0; 0; 0; 0; 0; 0; 0; 0; 0; 0;
    0; 0; 0; 0; 0; 0; 0; 0; 0; 0; 0; 0; 0; 0; 0; 0; 0; 0; 0; 0; 0; 0; 0; 0; 0; 0; 0; 0; 0; 0; 0;
    0; 0; 0; 0; 0; 0; 0; 0; 0; 0; 0; 0; 0; 0; 0; 0; 0; 0; 0; 0; 0; 0; 0; 0; 0; 0; 0; 0; 0; 0; 0;
    0; 0; 0; 0; 0; 0; 0; 0; 0; 0; 0; 0; 0; 0; 0; 0; 0; 0; 0; 0; 0; 0; 0; 0; 0; 0; 0; 0; 0; 0; 0;
    0; 0; 0; 0; 0; 0; 0; 0; 0; 0; 0; 0; 0; 0; 0; 0; 0; 0; 0; 0; 0; 0; 0; 0; 0; 0; 0; 0; 0; 0; 0;
    0; 0; 0; 0; 0; 0; 0; 0; 0; 0; 0; 0; 0; 0; 0; 0; 0; 0; 0; 0; 0; 0; 0; 0; 0; 0; 0; 0; 0; 0; 0;
    0; 0; 0; 0; 0; 0; 0; 0; 0; 0; 0; 0; 0; 0; 0; 0; 0; 0; 0; 0; 0; 0; 0; 0; 0; 0; 0; 0; 0; 0; 0;
    0; 0; 0; 0; 0; 0; 0; 0; 0; 0; 0; 0; 0; 0; 0; 0; 0; 0; 0; 0; 0; 0; 0; 0; 0; 0; 0; 0; 0; 0; 0;
    0; 0; 0; 0; 0; 0; 0; 0; 0; 0; 0; 0; 0; 0; 0; 0; 0; 0; 0; 0; 0; 0; 0; 0; 0; 0; 0; 0; 0; 0; 0;
    0; 0; 0; 0; 0; 0; 0; 0; 0; 0; 0; 0; 0; 0; 0; 0; 0; 0; 0; 0; 0; 0; 0; 0; 0; 0; 0; 0; 0; 0; 0;
    0; 0; 0; 0; 0; 0; 0; 0; 0; 0; 0; 0; 0; 0; 0; 0; 0; 0; 0; 0; 0; 0; 0; 0; 0; 0; 0; 0; 0; 0; 0;
    0; 0; 0; 0; 0; 0; 0; 0; 0; 0; 0; 0; 0; 0; 0; 0; 0; 0; 0; 0; 0; 0; 0; 0; 0; 0; 0; 0; 0; 0; 0;
    0; 0; 0; 0; 0; 0; 0; 0; 0; 0; 0; 0; 0; 0; 0; 0; 0; 0; 0; 0; 0; 0; 0; 0; 0; 0; 0; 0; 0; 0; 0;
    0; 0; 0; 0; 0; 0; 0; 0; 0; 0; 0; 0; 0; 0; 0; 0; 0; 0; 0; 0; 0; 0; 0; 0; 0; 0; 0; 0; 0; 0; 0;
    0; 0; 0; 0; 0; 0; 0; 0; 0; 0; 0; 0; 0; 0; 0; 0; 0; 0; 0; 0; 0; 0; 0; 0; 0; 0; 0; 0; 0; 0; 0;
    0; 0; 0; 0; 0; 0; 0; 0; 0; 0; 0; 0; 0; 0; 0; 0; 0; 0; 0; 0; 0; 0; 0; 0; 0; 0; 0; 0; 0; 0; 0;
    0; 0; 0; 0; 0; 0; 0; 0; 0; 0; 0; 0; 0; 0; 0; 0; 0; 0; 0; 0; 0; 0; 0; 0; 0; 0; 0; 0; 0; 0; 0;
    0; 0; 0; 0; 0; 0; 0; 0; 0; 0; 0; 0; 0; 0; 0; 0; 0; 0; 0; 0; 0; 0; 0; 0; 0; 0; 0; 0; 0; 0; 0;
    0; 0; 0; 0; 0; 0; 0; 0; 0; 0; 0; 0; 0; 0; 0; 0; 0; 0; 0; 0; 0; 0; 0; 0; 0; 0; 0; 0; 0; 0; 0;
    0; 0; 0; 0; 0; 0; 0; 0; 0; 0; 0; 0; 0; 0; 0; 0; 0; 0; 0; 0; 0; 0; 0; 0; 0; 0; 0; 0; 0; 0; 0;
    0; 0; 0; 0; 0; 0; 0; 0; 0; 0; 0; 0; 0; 0; 0; 0; 0; 0; 0; 0; 0; 0; 0; 0; 0; 0; 0; 0; 0; 0; 0;
    0; 0; 0; 0; 0; 0; 0; 0; 0; 0; 0; 0; 0; 0; 0; 0; 0; 0; 0; 0; 0; 0; 0; 0; 0; 0; 0; 0; 0; 0; 0;
    0; 0; 0; 0; 0; 0; 0; 0; 0; 0; 0; 0; 0; 0; 0; 0; 0; 0; 0; 0; 0; 0; 0; 0; 0; 0; 0; 0; 0; 0; 0;
    0; 0; 0; 0; 0; 0; 0; 0; 0; 0; 0; 0; 0; 0; 0; 0; 0; 0; 0; 0; 0; 0; 0; 0; 0; 0; 0; 0; 0; 0; 0;
    0; 0; 0; 0; 0; 0; 0; 0; 0; 0; 0; 0; 0; 0; 0; 0; 0; 0; 0; 0; 0; 0; 0; 0; 0; 0; 0; 0; 0; 0; 0;
    0; 0; 0; 0; 0; 0; 0; 0; 0; 0; 0; 0; 0; 0; 0; 0; 0; 0; 0; 0; 0; 0; 0; 0; 0; 0; 0; 0; 0; 0; 0;
    0; 0; 0; 0; 0; 0; 0; 0; 0; 0; 0; 0; 0; 0; 0; 0; 0; 0; 0; 0; 0; 0; 0; 0; 0; 0; 0; 0; 0; 0; 0;
    0; 0; 0; 0; 0; 0; 0; 0; 0; 0; 0; 0; 0; 0; 0; 0; 0; 0; 0; 0; 0; 0; 0; 0; 0; 0; 0; 0; 0; 0; 0;
    0; 0; 0; 0; 0; 0; 0; 0; 0; 0; 0; 0; 0; 0; 0; 0; 0; 0; 0; 0; 0; 0; 0; 0; 0; 0; 0; 0; 0; 0; 0;
    0; 0; 0; 0; 0; 0; 0; 0; 0; 0; 0; 0; 0; 0; 0; 0; 0; 0; 0; 0; 0; 0; 0; 0; 0; 0; 0; 0; 0; 0; 0;
    0; 0; 0; 0; 0; 0; 0; 0; 0; 0; 0; 0; 0; 0; 0; 0; 0; 0; 0; 0; 0; 0; 0; 0; 0; 0; 0; 0; 0; 0; 0;
    0; 0; 0; 0; 0; 0; 0; 0; 0; 0; 0; 0; 0; 0; 0; 0; 0; 0; 0; 0; 0; 0; 0; 0; 0; 0; 0; 0; 0; 0; 0;
    0; 0; 0; 0; 0; 0; 0; 0; 0; 0; 0; 0; 0; 0; 0; 0; 0; 0; 0; 0; 0; 0; 0; 0; 0; 0; 0; 0; 0; 0; 0;
    0; 0; 0; 0; 0; 0; 0; 0; 0; 0; 0; 0; 0; 0; 0; 0; 0; 0; 0; 0; 0; 0; 0; 0; 0; 0; 0; 0; 0; 0; 0;
    0; 0; 0; 0; 0; 0; 0; 0; 0; 0; 0; 0; 0; 0; 0; 0; 0; 0; 0; 0; 0; 0; 0; 0; 0; 0; 0; 0; 0; 0; 0;
    0; 0; 0; 0; 0; 0; 0; 0; 0; 0; 0; 0; 0; 0; 0; 0; 0; 0; 0; 0; 0; 0; 0; 0; 0; 0; 0; 0; 0; 0; 0;
    0; 0; 0; 0; 0; 0; 0; 0; 0; 0; 0; 0; 0; 0; 0; 0; 0; 0; 0; 0; 0; 0; 0; 0; 0; 0; 0; 0; 0; 0; 0;
    0; 0; 0; 0; 0; 0; 0; 0; 0; 0; 0; 0; 0; 0; 0; 0; 0; 0; 0; 0; 0; 0; 0; 0; 0; 0; 0; 0; 0; 0; 0;
    0; 0; 0; 0; 0; 0; 0; 0; 0; 0; 0; 0; 0; 0; 0; 0; 0; 0; 0; 0; 0; 0; 0; 0; 0; 0; 0; 0; 0; 0; 0;
    0; 0; 0; 0; 0; 0; 0; 0; 0; 0; 0; 0; 0; 0; 0; 0; 0; 0; 0; 0; 0; 0; 0; 0; 0; 0; 0; 0; 0; 0; 0;
    0; 0; 0; 0; 0; 0; 0; 0; 0; 0; 0; 0; 0; 0; 0; 0; 0; 0; 0; 0; 0; 0; 0; 0; 0; 0; 0; 0; 0; 0; 0;
    0; 0; 0; 0; 0; 0; 0; 0; 0; 0; 0; 0; 0; 0; 0; 0; 0; 0; 0; 0; 0; 0; 0; 0; 0; 0; 0; 0; 0; 0; 0;
    0; 0; 0; 0; 0; 0; 0; 0; 0; 0; 0; 0; 0; 0; 0; 0; 0; 0; 0; 0; 0; 0; 0; 0; 0; 0; 0; 0; 0; 0; 0;
    0; 0; 0; 0; 0; 0; 0; 0; 0; 0; 0; 0; 0; 0; 0; 0; 0; 0; 0; 0; 0; 0; 0; 0; 0; 0; 0; 0; 0; 0; 0;
    0; 0; 0; 0; 0; 0; 0; 0; 0; 0; 0; 0; 0; 0; 0; 0; 0; 0; 0; 0; 0; 0; 0; 0; 0; 0; 0; 0; 0; 0; 0;
    0; 0; 0; 0; 0; 0; 0; 0; 0; 0; 0; 0; 0; 0; 0; 0; 0; 0; 0; 0; 0; 0; 0; 0; 0; 0; 0; 0; 0; 0; 0;
    0; 0; 0; 0; 0; 0; 0; 0; 0; 0; 0; 0; 0; 0; 0; 0; 0; 0; 0; 0; 0; 0; 0; 0; 0; 0; 0; 0; 0; 0; 0;
    0; 0; 0; 0; 0; 0; 0; 0; 0; 0; 0; 0; 0; 0; 0; 0; 0; 0; 0; 0; 0; 0; 0; 0; 0; 0; 0; 0; 0; 0; 0;
    0; 0; 0; 0; 0; 0; 0; 0; 0; 0; 0; 0; 0; 0; 0; 0; 0; 0; 0; 0; 0; 0; 0; 0; 0; 0; 0; 0; 0; 0; 0;
    0; 0; 0; 0; 0; 0; 0; 0; 0; 0; 0; 0; 0; 0; 0; 0; 0; 0; 0; 0; 0; 0; 0; 0; 0; 0; 0; 0; 0; 0; 0;
    0; 0; 0; 0; 0; 0; 0; 0; 0; 0; 0; 0; 0; 0; 0; 0; 0; 0; 0; 0; 0; 0; 0; 0; 0; 0; 0; 0; 0; 0; 0;
    0; 0; 0; 0; 0; 0; 0; 0; 0; 0; 0; 0; 0; 0; 0; 0; 0; 0; 0; 0; 0; 0; 0; 0; 0; 0; 0; 0; 0; 0; 0;
    0; 0; 0; 0; 0; 0; 0; 0; 0; 0; 0; 0; 0; 0; 0; 0; 0; 0; 0; 0; 0; 0; 0; 0; 0; 0; 0; 0; 0; 0; 0;
    0; 0; 0; 0; 0; 0; 0; 0; 0; 0; 0; 0; 0; 0; 0; 0; 0; 0; 0; 0; 0; 0; 0; 0; 0; 0; 0; 0; 0; 0; 0;
    0; 0; 0; 0; 0; 0; 0; 0; 0; 0; 0; 0; 0; 0; 0; 0; 0; 0; 0; 0; 0; 0; 0; 0; 0; 0; 0; 0; 0; 0; 0;
    0; 0; 0; 0; 0; 0; 0; 0; 0; 0; 0; 0; 0; 0; 0; 0; 0; 0; 0; 0; 0; 0; 0; 0; 0; 0; 0; 0; 0; 0; 0;
    0; 0; 0; 0; 0; 0; 0; 0; 0; 0; 0; 0; 0; 0; 0; 0; 0; 0; 0; 0; 0; 0; 0; 0; 0; 0; 0; 0; 0; 0; 0;
    0; 0; 0; 0; 0; 0; 0; 0; 0; 0; 0; 0; 0; 0; 0; 0; 0; 0; 0; 0; 0; 0; 0; 0; 0; 0; 0; 0; 0; 0; 0;
    0; 0; 0; 0; 0; 0; 0; 0; 0; 0; 0; 0; 0; 0; 0; 0; 0; 0; 0; 0; 0; 0; 0; 0; 0; 0; 0; 0; 0; 0; 0;
    0; 0; 0; 0; 0; 0; 0; 0; 0; 0; 0; 0; 0; 0; 0; 0; 0; 0; 0; 0; 0; 0; 0; 0; 0; 0; 0; 0; 0; 0; 0;
    0; 0; 0; 0; 0; 0; 0; 0; 0; 0; 0; 0; 0; 0; 0; 0; 0; 0; 0; 0; 0; 0; 0; 0; 0; 0; 0; 0; 0; 0; 0;
    0; 0; 0; 0; 0; 0; 0; 0; 0; 0; 0; 0; 0; 0; 0; 0; 0].

(* src/extended_capabilities.rs:922, test [iterator] *)
Example extended_capabilities_iterator_922 :
  map (map_ok (fun e => (M_ExtCaps.ExtendedCapability.offset e, M_ExtCaps.ExtendedCapability.id
    e)))
    (first_items M_ExtCaps.ExtendedCapabilities.next 300 (M_ExtCaps.ExtendedCapabilities.new
      (drop 256 config_8086_2030))) =
  map Ok [(0x100, 0x000b); (0x110, 0x000d); (0x148, 0x0001); (0x1d0, 0x000b);
          (0x250, 0x0019); (0x280, 0x000b); (0x298, 0x000b); (0x300, 0x000b)].
Proof. vm_compute. reflexivity. Qed.

(* src/extended_capabilities/access_control_services.rs:17, documentation example *)
Example access_control_services_doc_17 :
  map_ok (fun x => (M_ExtMid.AccessControlServices.acs_capability x,
    M_ExtMid.AccessControlServices.acs_control x)) (M_ExtMid.AccessControlServices.try_from (drop
    4 [13; 0; 1; 0; 15; 0; 0; 0])) =
  Ok ({| M_ExtMid.AcsCapability.acs_source_validation := true;
    M_ExtMid.AcsCapability.acs_translation_blocking := true;
    M_ExtMid.AcsCapability.acs_p2p_request_redirect := true;
    M_ExtMid.AcsCapability.acs_p2p_completion_redirect := true;
    M_ExtMid.AcsCapability.acs_upstream_forwarding := false;
    M_ExtMid.AcsCapability.acs_p2p_egress_control := false;
    M_ExtMid.AcsCapability.acs_direct_translated_p2p := false;
    M_ExtMid.AcsCapability.egress_control_vector_size := 0 |}, {|
    M_ExtMid.AcsControl.acs_source_validation_enable := false;
    M_ExtMid.AcsControl.acs_translation_blocking_enable := false;
    M_ExtMid.AcsControl.acs_p2p_request_redirect_enable := false;
    M_ExtMid.AcsControl.acs_p2p_completion_redirect_enable := false;
    M_ExtMid.AcsControl.acs_upstream_forwarding_enable := false;
    M_ExtMid.AcsControl.acs_p2p_egress_control_enable := false;
    M_ExtMid.AcsControl.acs_direct_translated_p2p_enable := false |}).
Proof. vm_compute. reflexivity. Qed.

(* src/extended_capabilities/access_control_services.rs:242, test [egress_control_vectors] *)
Example access_control_services_egress_control_vectors_242 :
  first_items M_ExtMid.EgressControlVectors.next 300 (M_ExtMid.EgressControlVectors.new [0; 15;
    170; 255; 85; 0; 0; 0] 35) =
  map (fun v => negb (v =? 0)) (take 35 [0; 0; 0; 0; 0; 0; 0; 0; 1; 1; 1; 1; 0; 0; 0; 0; 0; 1; 0;
    1; 0; 1; 0; 1; 1; 1; 1; 1; 1; 1; 1; 1; 1; 0; 1; 0; 1; 0; 1; 0; 0; 0; 0; 0; 0; 0; 0; 0; 0; 0;
    0; 0; 0; 0; 0; 0; 0; 0; 0; 0; 0; 0; 0; 0]).
Proof. vm_compute. reflexivity. Qed.

(* src/extended_capabilities/address_translation_services.rs:14, documentation example *)
Example address_translation_services_doc_14 :
  M_ExtSmall.AddressTranslationServices.try_from (drop 4 [15; 0; 0; 0; 36; 0; 2; 0]) =
  Ok {| M_ExtSmall.AddressTranslationServices.ats_capability := {|
    M_ExtSmall.AtsCapability.invalidate_queue_depth := 4;
    M_ExtSmall.AtsCapability.page_aligned_request := true;
    M_ExtSmall.AtsCapability.global_invalidate_supported := false |};
    M_ExtSmall.AddressTranslationServices.ats_control := {|
    M_ExtSmall.AtsControl.smallest_translation_unit := 2; M_ExtSmall.AtsControl.enable := false
    |} |}.
Proof. vm_compute. reflexivity. Qed.

(* src/extended_capabilities/advanced_error_reporting.rs:38, documentation example *)
Example advanced_error_reporting_doc_38 :
  M_ExtErr.AdvancedErrorReporting.try_from (drop 4 [1; 0; 1; 20; 0; 0; 0; 0; 0; 0; 49; 0; 17;
    208; 6; 0; 0; 0; 0; 0; 193; 49; 0; 0; 0; 0; 0; 0; 0; 0; 0; 0; 0; 0; 0; 0; 0; 0; 0; 0; 0; 0;
    0; 0; 0; 0; 0; 0; 0; 0; 0; 0; 0; 0; 0; 0; 0; 0; 0; 0; 0; 0; 0; 0]) =
  Ok {| M_ExtErr.AdvancedErrorReporting.uncorrectable_error_status := {|
    M_ExtErr.UncorrectableError.link_training_error := false;
    M_ExtErr.UncorrectableError.data_link_protocol_error_status := false;
    M_ExtErr.UncorrectableError.surprise_down_error_status := false;
    M_ExtErr.UncorrectableError.poisoned_tlp_received_status := false;
    M_ExtErr.UncorrectableError.flow_control_protocol_error_status := false;
    M_ExtErr.UncorrectableError.completion_timeout_status := false;
    M_ExtErr.UncorrectableError.completer_abort_status := false;
    M_ExtErr.UncorrectableError.unexpected_completion_status := false;
    M_ExtErr.UncorrectableError.receiver_overflow_status := false;
    M_ExtErr.UncorrectableError.malformed_tlp_status := false;
    M_ExtErr.UncorrectableError.ecrc_error_status := false;
    M_ExtErr.UncorrectableError.unsupported_request_error_status := false;
    M_ExtErr.UncorrectableError.acs_violation_status := false;
    M_ExtErr.UncorrectableError.uncorrectable_internal_error_status := false;
    M_ExtErr.UncorrectableError.mc_blocked_tlp_status := false;
    M_ExtErr.UncorrectableError.atomicop_egress_blocked_status := false;
    M_ExtErr.UncorrectableError.tlp_prefix_blocked_error_status := false;
    M_ExtErr.UncorrectableError.poisoned_tlp_egress_blocked_status := false |};
    M_ExtErr.AdvancedErrorReporting.uncorrectable_error_mask := {|
    M_ExtErr.UncorrectableError.link_training_error := false;
    M_ExtErr.UncorrectableError.data_link_protocol_error_status := false;
    M_ExtErr.UncorrectableError.surprise_down_error_status := false;
    M_ExtErr.UncorrectableError.poisoned_tlp_received_status := false;
    M_ExtErr.UncorrectableError.flow_control_protocol_error_status := false;
    M_ExtErr.UncorrectableError.completion_timeout_status := false;
    M_ExtErr.UncorrectableError.completer_abort_status := false;
    M_ExtErr.UncorrectableError.unexpected_completion_status := true;
    M_ExtErr.UncorrectableError.receiver_overflow_status := false;
    M_ExtErr.UncorrectableError.malformed_tlp_status := false;
    M_ExtErr.UncorrectableError.ecrc_error_status := false;
    M_ExtErr.UncorrectableError.unsupported_request_error_status := true;
    M_ExtErr.UncorrectableError.acs_violation_status := true;
    M_ExtErr.UncorrectableError.uncorrectable_internal_error_status := false;
    M_ExtErr.UncorrectableError.mc_blocked_tlp_status := false;
    M_ExtErr.UncorrectableError.atomicop_egress_blocked_status := false;
    M_ExtErr.UncorrectableError.tlp_prefix_blocked_error_status := false;
    M_ExtErr.UncorrectableError.poisoned_tlp_egress_blocked_status := false |};
    M_ExtErr.AdvancedErrorReporting.uncorrectable_error_severity := {|
    M_ExtErr.UncorrectableError.link_training_error := true;
    M_ExtErr.UncorrectableError.data_link_protocol_error_status := true;
    M_ExtErr.UncorrectableError.surprise_down_error_status := false;
    M_ExtErr.UncorrectableError.poisoned_tlp_received_status := true;
    M_ExtErr.UncorrectableError.flow_control_protocol_error_status := false;
    M_ExtErr.UncorrectableError.completion_timeout_status := true;
    M_ExtErr.UncorrectableError.completer_abort_status := true;
    M_ExtErr.UncorrectableError.unexpected_completion_status := false;
    M_ExtErr.UncorrectableError.receiver_overflow_status := true;
    M_ExtErr.UncorrectableError.malformed_tlp_status := true;
    M_ExtErr.UncorrectableError.ecrc_error_status := false;
    M_ExtErr.UncorrectableError.unsupported_request_error_status := false;
    M_ExtErr.UncorrectableError.acs_violation_status := false;
    M_ExtErr.UncorrectableError.uncorrectable_internal_error_status := false;
    M_ExtErr.UncorrectableError.mc_blocked_tlp_status := false;
    M_ExtErr.UncorrectableError.atomicop_egress_blocked_status := false;
    M_ExtErr.UncorrectableError.tlp_prefix_blocked_error_status := false;
    M_ExtErr.UncorrectableError.poisoned_tlp_egress_blocked_status := false |};
    M_ExtErr.AdvancedErrorReporting.correctable_error_status := {|
    M_ExtErr.CorrectableError.receiver_error_status := false;
    M_ExtErr.CorrectableError.bad_tlp_status := false; M_ExtErr.CorrectableError.bad_dllp_status
    := false; M_ExtErr.CorrectableError.replay_num_rollover_status := false;
    M_ExtErr.CorrectableError.replay_timer_timeout_status := false;
    M_ExtErr.CorrectableError.advisory_non_fatal_error_status := false;
    M_ExtErr.CorrectableError.corrected_internal_error_status := false;
    M_ExtErr.CorrectableError.header_log_overflow_status := false |};
    M_ExtErr.AdvancedErrorReporting.correctable_error_mask := {|
    M_ExtErr.CorrectableError.receiver_error_status := true;
    M_ExtErr.CorrectableError.bad_tlp_status := true; M_ExtErr.CorrectableError.bad_dllp_status
    := true; M_ExtErr.CorrectableError.replay_num_rollover_status := true;
    M_ExtErr.CorrectableError.replay_timer_timeout_status := true;
    M_ExtErr.CorrectableError.advisory_non_fatal_error_status := true;
    M_ExtErr.CorrectableError.corrected_internal_error_status := false;
    M_ExtErr.CorrectableError.header_log_overflow_status := false |};
    M_ExtErr.AdvancedErrorReporting.advanced_error_capabilities_and_control := {|
    M_ExtErr.AdvancedErrorCapabilitiesAndControl.first_error_pointer := 0;
    M_ExtErr.AdvancedErrorCapabilitiesAndControl.ecrc_generation_capable := false;
    M_ExtErr.AdvancedErrorCapabilitiesAndControl.ecrc_generation_enable := false;
    M_ExtErr.AdvancedErrorCapabilitiesAndControl.ecrc_check_capable := false;
    M_ExtErr.AdvancedErrorCapabilitiesAndControl.ecrc_check_enable := false;
    M_ExtErr.AdvancedErrorCapabilitiesAndControl.multiple_header_recording_capable := false;
    M_ExtErr.AdvancedErrorCapabilitiesAndControl.multiple_header_recording_enable := false;
    M_ExtErr.AdvancedErrorCapabilitiesAndControl.tlp_prefix_log_present := false;
    M_ExtErr.AdvancedErrorCapabilitiesAndControl.completion_timeout_prefix_or_header_log_capable
    := false |}; M_ExtErr.AdvancedErrorReporting.header_log := (M_ExtErr.HeaderLog.mk [0; 0; 0;
    0]); M_ExtErr.AdvancedErrorReporting.root_error_command := (Some {|
    M_ExtErr.RootErrorCommand.correctable_error_reporting_enable := false;
    M_ExtErr.RootErrorCommand.non_fatal_error_reporting_enable := false;
    M_ExtErr.RootErrorCommand.fatal_error_reporting_enable := false |});
    M_ExtErr.AdvancedErrorReporting.root_error_status := (Some {|
    M_ExtErr.RootErrorStatus.err_cor_received := false;
    M_ExtErr.RootErrorStatus.multiple_err_cor_received := false;
    M_ExtErr.RootErrorStatus.err_fatal_or_nonfatal_received := false;
    M_ExtErr.RootErrorStatus.multiple_err_fatal_or_nonfatal_received := false;
    M_ExtErr.RootErrorStatus.first_uncorrectable_fatal := false;
    M_ExtErr.RootErrorStatus.non_fatal_error_messages_received := false;
    M_ExtErr.RootErrorStatus.fatal_error_messages_received := false;
    M_ExtErr.RootErrorStatus.advanced_error_interrupt_message_number := 0 |});
    M_ExtErr.AdvancedErrorReporting.error_source_identification := (Some {|
    M_ExtErr.ErrorSourceIdentification.err_cor_source_identification := 0;
    M_ExtErr.ErrorSourceIdentification.err_fatal_or_nonfatal_source_identification := 0 |});
    M_ExtErr.AdvancedErrorReporting.tlp_prefix_log := None |}.
Proof. vm_compute. reflexivity. Qed.

(* src/extended_capabilities/advanced_error_reporting.rs:583, test [uncorrectable_error_status] *)
Example advanced_error_reporting_uncorrectable_error_status_583 :
  M_ExtErr.UncorrectableError.from (le [17; 0; 6; 0]) =
  {| M_ExtErr.UncorrectableError.link_training_error := true;
    M_ExtErr.UncorrectableError.data_link_protocol_error_status := true;
    M_ExtErr.UncorrectableError.surprise_down_error_status := false;
    M_ExtErr.UncorrectableError.poisoned_tlp_received_status := false;
    M_ExtErr.UncorrectableError.flow_control_protocol_error_status := false;
    M_ExtErr.UncorrectableError.completion_timeout_status := false;
    M_ExtErr.UncorrectableError.completer_abort_status := false;
    M_ExtErr.UncorrectableError.unexpected_completion_status := false;
    M_ExtErr.UncorrectableError.receiver_overflow_status := true;
    M_ExtErr.UncorrectableError.malformed_tlp_status := true;
    M_ExtErr.UncorrectableError.ecrc_error_status := false;
    M_ExtErr.UncorrectableError.unsupported_request_error_status := false;
    M_ExtErr.UncorrectableError.acs_violation_status := false;
    M_ExtErr.UncorrectableError.uncorrectable_internal_error_status := false;
    M_ExtErr.UncorrectableError.mc_blocked_tlp_status := false;
    M_ExtErr.UncorrectableError.atomicop_egress_blocked_status := false;
    M_ExtErr.UncorrectableError.tlp_prefix_blocked_error_status := false;
    M_ExtErr.UncorrectableError.poisoned_tlp_egress_blocked_status := false |}.
Proof. vm_compute. reflexivity. Qed.

(* src/extended_capabilities/advanced_error_reporting.rs:610, test [correctable_error_status] *)
Example advanced_error_reporting_correctable_error_status_610 :
  M_ExtErr.CorrectableError.from (le [0; 32; 0; 0]) =
  {| M_ExtErr.CorrectableError.receiver_error_status := false;
    M_ExtErr.CorrectableError.bad_tlp_status := false; M_ExtErr.CorrectableError.bad_dllp_status
    := false; M_ExtErr.CorrectableError.replay_num_rollover_status := false;
    M_ExtErr.CorrectableError.replay_timer_timeout_status := false;
    M_ExtErr.CorrectableError.advisory_non_fatal_error_status := true;
    M_ExtErr.CorrectableError.corrected_internal_error_status := false;
    M_ExtErr.CorrectableError.header_log_overflow_status := false |}.
Proof. vm_compute. reflexivity. Qed.

(* src/extended_capabilities/advanced_error_reporting.rs:627, test [advanced_error_capabilities_and_control] *)
Example advanced_error_reporting_advanced_error_capabilities_and_control_627 :
  M_ExtErr.AdvancedErrorCapabilitiesAndControl.from (le [0; 0; 0; 0]) =
  {| M_ExtErr.AdvancedErrorCapabilitiesAndControl.first_error_pointer := 0;
    M_ExtErr.AdvancedErrorCapabilitiesAndControl.ecrc_generation_capable := false;
    M_ExtErr.AdvancedErrorCapabilitiesAndControl.ecrc_generation_enable := false;
    M_ExtErr.AdvancedErrorCapabilitiesAndControl.ecrc_check_capable := false;
    M_ExtErr.AdvancedErrorCapabilitiesAndControl.ecrc_check_enable := false;
    M_ExtErr.AdvancedErrorCapabilitiesAndControl.multiple_header_recording_capable := false;
    M_ExtErr.AdvancedErrorCapabilitiesAndControl.multiple_header_recording_enable := false;
    M_ExtErr.AdvancedErrorCapabilitiesAndControl.tlp_prefix_log_present := false;
    M_ExtErr.AdvancedErrorCapabilitiesAndControl.completion_timeout_prefix_or_header_log_capable
    := false |}.
Proof. vm_compute. reflexivity. Qed.

(* src/extended_capabilities/advanced_error_reporting.rs:646, test [root_error_command] *)
Example advanced_error_reporting_root_error_command_646 :
  M_ExtErr.RootErrorCommand.from (le [7; 0; 0; 0]) =
  {| M_ExtErr.RootErrorCommand.correctable_error_reporting_enable := true;
    M_ExtErr.RootErrorCommand.non_fatal_error_reporting_enable := true;
    M_ExtErr.RootErrorCommand.fatal_error_reporting_enable := true |}.
Proof. vm_compute. reflexivity. Qed.

(* src/extended_capabilities/advanced_error_reporting.rs:658, test [root_error_status] *)
Example advanced_error_reporting_root_error_status_658 :
  M_ExtErr.RootErrorStatus.from (le [0; 0; 0; 0]) =
  {| M_ExtErr.RootErrorStatus.err_cor_received := false;
    M_ExtErr.RootErrorStatus.multiple_err_cor_received := false;
    M_ExtErr.RootErrorStatus.err_fatal_or_nonfatal_received := false;
    M_ExtErr.RootErrorStatus.multiple_err_fatal_or_nonfatal_received := false;
    M_ExtErr.RootErrorStatus.first_uncorrectable_fatal := false;
    M_ExtErr.RootErrorStatus.non_fatal_error_messages_received := false;
    M_ExtErr.RootErrorStatus.fatal_error_messages_received := false;
    M_ExtErr.RootErrorStatus.advanced_error_interrupt_message_number := 0 |}.
Proof. vm_compute. reflexivity. Qed.

(* src/extended_capabilities/alternative_routing_id_interpolation.rs:22, documentation example *)
Example alternative_routing_id_interpolation_doc_22 :
  M_ExtSmall.AlternativeRoutingIdInterpretation.try_from (drop 4 [14; 0; 1; 22; 0; 1; 0; 0]) =
  Ok {| M_ExtSmall.AlternativeRoutingIdInterpretation.ari_capability := {|
    M_ExtSmall.AriCapability.mfvc_function_groups_capability := false;
    M_ExtSmall.AriCapability.acs_function_groups_capability := false;
    M_ExtSmall.AriCapability.next_function_number := 1 |};
    M_ExtSmall.AlternativeRoutingIdInterpretation.ari_control := {|
    M_ExtSmall.AriControl.mfvc_function_groups_enable := false;
    M_ExtSmall.AriControl.acs_function_groups_enable := false;
    M_ExtSmall.AriControl.function_group := 0 |} |}.
Proof. vm_compute. reflexivity. Qed.

(* src/extended_capabilities/configuration_access_correlation.rs:14, documentation example *)
Example configuration_access_correlation_doc_14 :
  M_ExtSmall.ConfigurationAccessCorrelation.try_from [12; 0; 1; 0; 0; 17; 34; 51] =
  Ok {| M_ExtSmall.ConfigurationAccessCorrelation.device_correlation := 857870592 |}.
Proof. vm_compute. reflexivity. Qed.

(* src/extended_capabilities/designated_vendor_specific_extended_capability.rs:17, documentation example *)
Example designated_vendor_specific_extended_capability_doc_17 :
  M_ExtDvsec.DesignatedVendorSpecificExtendedCapability.try_from [35; 0; 1; 0; 134; 128; 2; 1;
    35; 0; 0; 17; 34; 51; 68; 85] =
  Ok {| M_ExtDvsec.DesignatedVendorSpecificExtendedCapability.dvsec_vendor_id := 32902;
    M_ExtDvsec.DesignatedVendorSpecificExtendedCapability.dvsec_revision := 2;
    M_ExtDvsec.DesignatedVendorSpecificExtendedCapability.dvsec_length := 16;
    M_ExtDvsec.DesignatedVendorSpecificExtendedCapability.dvsec_id := 35;
    M_ExtDvsec.DesignatedVendorSpecificExtendedCapability.dvsec_type :=
    (M_ExtDvsec.DvsecType.Unspecified [0; 17; 34; 51; 68; 85]) |}.
Proof. vm_compute. reflexivity. Qed.

(* src/extended_capabilities/designated_vendor_specific_extended_capability/compute_express_link.rs:22, documentation example *)
Example designated_vendor_specific_extended_capability_compute_express_link_doc_22 :
  M_ExtDvsec.DesignatedVendorSpecificExtendedCapability.try_from [35; 0; 1; 0; 152; 30; 193; 0;
    85; 85; 85; 85] =
  Ok {| M_ExtDvsec.DesignatedVendorSpecificExtendedCapability.dvsec_vendor_id := 7832;
    M_ExtDvsec.DesignatedVendorSpecificExtendedCapability.dvsec_revision := 1;
    M_ExtDvsec.DesignatedVendorSpecificExtendedCapability.dvsec_length := 12;
    M_ExtDvsec.DesignatedVendorSpecificExtendedCapability.dvsec_id := 21845;
    M_ExtDvsec.DesignatedVendorSpecificExtendedCapability.dvsec_type :=
    (M_ExtDvsec.DvsecType.ComputeExpressLink (M_ExtDvsec.ComputeExpressLink.Undefined 21845)) |}.
Proof. vm_compute. reflexivity. Qed.

(* src/extended_capabilities/designated_vendor_specific_extended_capability/compute_express_link/pcie_dvsec_for_cxl_device.rs:29, documentation example *)
Example designated_vendor_specific_extended_capability_compute_express_link_pcie_dvsec_for_cxl_device_doc_29 :
  M_ExtDvsec.DesignatedVendorSpecificExtendedCapability.try_from [35; 0; 1; 0; 152; 30; 129; 3;
    0; 0; 85; 170; 85; 85; 0; 64; 10; 0; 10; 128; 254; 255; 1; 170; 17; 34; 51; 68; 10; 68; 0; 0;
    85; 102; 119; 136; 0; 0; 0; 64; 153; 170; 187; 204; 85; 5; 5; 133; 221; 238; 255; 0; 0; 0; 0;
    192] =
  Ok {| M_ExtDvsec.DesignatedVendorSpecificExtendedCapability.dvsec_vendor_id := 7832;
    M_ExtDvsec.DesignatedVendorSpecificExtendedCapability.dvsec_revision := 1;
    M_ExtDvsec.DesignatedVendorSpecificExtendedCapability.dvsec_length := 56;
    M_ExtDvsec.DesignatedVendorSpecificExtendedCapability.dvsec_id := 0;
    M_ExtDvsec.DesignatedVendorSpecificExtendedCapability.dvsec_type :=
    (M_ExtDvsec.DvsecType.ComputeExpressLink (M_ExtDvsec.ComputeExpressLink.PcieDvsecForCxlDevice
    {| M_ExtDvsec.PcieDvsecForCxlDevice.cxl_capability := {|
    M_ExtDvsec.CxlCapability.cache_capable := true; M_ExtDvsec.CxlCapability.io_capable := false;
    M_ExtDvsec.CxlCapability.mem_capable := true; M_ExtDvsec.CxlCapability.mem_hwinit_mode :=
    false; M_ExtDvsec.CxlCapability.hdm_count := M_ExtDvsec.HdmCount.OneHdmRange;
    M_ExtDvsec.CxlCapability.cache_writeback_and_invalidate_capable := true;
    M_ExtDvsec.CxlCapability.cxl_reset_capable := false;
    M_ExtDvsec.CxlCapability.cxl_reset_timeout := M_ExtDvsec.CxlResetTimeout.MaxTime1s;
    M_ExtDvsec.CxlCapability.cxl_reset_mem_clr_capable := true;
    M_ExtDvsec.CxlCapability.multiple_logical_device := true;
    M_ExtDvsec.CxlCapability.viral_capable := false;
    M_ExtDvsec.CxlCapability.pm_init_completion_reporting_capable := true |};
    M_ExtDvsec.PcieDvsecForCxlDevice.cxl_control := {| M_ExtDvsec.CxlControl.cache_enable :=
    true; M_ExtDvsec.CxlControl.io_enable := false; M_ExtDvsec.CxlControl.mem_enable := true;
    M_ExtDvsec.CxlControl.cache_sf_coverage := (M_ExtDvsec.CacheSfCoverage.SnoopFilter (N.shiftl
    1 (10 + 15))); M_ExtDvsec.CxlControl.cache_sf_granularity :=
    M_ExtDvsec.CacheSfGranularity.Tracking2KB; M_ExtDvsec.CxlControl.cache_clean_eviction :=
    M_ExtDvsec.CacheCleanEviction.Needed; M_ExtDvsec.CxlControl.viral_enable := true |};
    M_ExtDvsec.PcieDvsecForCxlDevice.cxl_status := {| M_ExtDvsec.CxlStatus.viral_status := true
    |}; M_ExtDvsec.PcieDvsecForCxlDevice.cxl_control2 := {|
    M_ExtDvsec.CxlControl2.disable_caching := false;
    M_ExtDvsec.CxlControl2.initiate_cache_write_back_and_invalidation := true;
    M_ExtDvsec.CxlControl2.initiate_cxl_reset := false;
    M_ExtDvsec.CxlControl2.cxl_reset_mem_clr_enable := true |};
    M_ExtDvsec.PcieDvsecForCxlDevice.cxl_status2 := {| M_ExtDvsec.CxlStatus2.cache_invalid :=
    false; M_ExtDvsec.CxlStatus2.cxl_reset_complete := true;
    M_ExtDvsec.CxlStatus2.cxl_reset_error := false;
    M_ExtDvsec.CxlStatus2.power_management_initialization_complete := true |};
    M_ExtDvsec.PcieDvsecForCxlDevice.cxl_lock := {| M_ExtDvsec.CxlLock.config_lock := false |};
    M_ExtDvsec.PcieDvsecForCxlDevice.cxl_capability2 := {|
    M_ExtDvsec.CxlCapability2.cache_size_unit := M_ExtDvsec.CacheSizeUnit.Unit64K;
    M_ExtDvsec.CxlCapability2.cache_size := 170 |};
    M_ExtDvsec.PcieDvsecForCxlDevice.cxl_range_1_size := {|
    M_ExtDvsec.CxlRangeSize.memory_info_valid := false; M_ExtDvsec.CxlRangeSize.memory_active :=
    true; M_ExtDvsec.CxlRangeSize.media_type := M_ExtDvsec.MediaType.Cdat;
    M_ExtDvsec.CxlRangeSize.memory_class := M_ExtDvsec.MemoryClass.Memory;
    M_ExtDvsec.CxlRangeSize.desired_interleave := M_ExtDvsec.DesiredInterleave.Granularity1KB;
    M_ExtDvsec.CxlRangeSize.memory_active_timeout := M_ExtDvsec.MemoryActiveTimeout.MaxTime16s;
    M_ExtDvsec.CxlRangeSize.memory_size := 4914309074801131520 |};
    M_ExtDvsec.PcieDvsecForCxlDevice.cxl_range_1_base := {| M_ExtDvsec.CxlRangeBase.memory_base
    := 9833440827718762496 |}; M_ExtDvsec.PcieDvsecForCxlDevice.cxl_range_2_size := {|
    M_ExtDvsec.CxlRangeSize.memory_info_valid := true; M_ExtDvsec.CxlRangeSize.memory_active :=
    false; M_ExtDvsec.CxlRangeSize.media_type := (M_ExtDvsec.MediaType.Reserved 5);
    M_ExtDvsec.CxlRangeSize.memory_class := M_ExtDvsec.MemoryClass.Cdat;
    M_ExtDvsec.CxlRangeSize.desired_interleave := M_ExtDvsec.DesiredInterleave.Granularity2KB;
    M_ExtDvsec.CxlRangeSize.memory_active_timeout := M_ExtDvsec.MemoryActiveTimeout.MaxTime1s;
    M_ExtDvsec.CxlRangeSize.memory_size := 14752572580636393472 |};
    M_ExtDvsec.PcieDvsecForCxlDevice.cxl_range_2_base := {| M_ExtDvsec.CxlRangeBase.memory_base
    := 72038755237625856 |} |})) |}.
Proof. vm_compute. reflexivity. Qed.

(* src/extended_capabilities/device_serial_number.rs:13, documentation example *)
Example device_serial_number_doc_13 :
  M_ExtSmall.DeviceSerialNumber.try_from (drop 4 [3; 0; 0; 0; 17; 34; 51; 68; 85; 102; 119; 136]) =
  Ok {| M_ExtSmall.DeviceSerialNumber.lower_dword := 1144201745;
    M_ExtSmall.DeviceSerialNumber.upper_dword := 2289526357 |}.
Proof. vm_compute. reflexivity. Qed.

(* src/extended_capabilities/downstream_port_containment.rs:28, documentation example *)
Example downstream_port_containment_doc_28 :
  M_ExtErr.DownstreamPortContainment.try_from (drop 4 [29; 0; 1; 0; 224; 23; 0; 0; 0; 31; 0; 0;
    1; 0; 0; 0; 7; 7; 7; 0; 0; 0; 0; 0; 0; 0; 0; 0; 0; 0; 0; 0; 1; 0; 0; 0; 2; 0; 0; 0; 3; 0; 0;
    0; 4; 0; 0; 0; 66; 0; 0; 0; 17; 0; 0; 0; 34; 0; 0; 0; 51; 0; 0; 0]) =
  Ok {| M_ExtErr.DownstreamPortContainment.dpc_capability := {|
    M_ExtErr.DpcCapability.dpc_interrupt_message_number := 0;
    M_ExtErr.DpcCapability.rp_extensions_for_dpc := true;
    M_ExtErr.DpcCapability.poisoned_tlp_egress_blocking_supported := true;
    M_ExtErr.DpcCapability.dpc_software_triggering_supported := true;
    M_ExtErr.DpcCapability.rp_pio_log_size := 7;
    M_ExtErr.DpcCapability.dl_active_err_cor_signaling_supported := true |};
    M_ExtErr.DownstreamPortContainment.dpc_control := {| M_ExtErr.DpcControl.dpc_trigger_enable
    := M_ExtErr.DpcTrigger.Disabled; M_ExtErr.DpcControl.dpc_completion_control := false;
    M_ExtErr.DpcControl.dpc_interrupt_enable := false; M_ExtErr.DpcControl.dpc_err_cor_enable :=
    false; M_ExtErr.DpcControl.poisoned_tlp_egress_blocking_enable := false;
    M_ExtErr.DpcControl.dpc_software_trigger := false;
    M_ExtErr.DpcControl.dl_active_err_cor_enable := false |};
    M_ExtErr.DownstreamPortContainment.dpc_status := {| M_ExtErr.DpcStatus.dpc_trigger_status :=
    false; M_ExtErr.DpcStatus.dpc_trigger_reason :=
    M_ExtErr.DpcTriggerReason.UnmaskedUncorrectableError; M_ExtErr.DpcStatus.dpc_interrupt_status
    := false; M_ExtErr.DpcStatus.dpc_rp_busy := false;
    M_ExtErr.DpcStatus.rp_pio_first_error_pointer := 31 |};
    M_ExtErr.DownstreamPortContainment.dpc_error_source_id := 0;
    M_ExtErr.DownstreamPortContainment.rp_extensions := (Some {|
    M_ExtErr.RpExtensions.rp_pio_status := {| M_ExtErr.RpPio.cfg_ur_cpl := true;
    M_ExtErr.RpPio.cfg_ca_cpl := false; M_ExtErr.RpPio.cfg_cto := false; M_ExtErr.RpPio.io_ur_cpl
    := false; M_ExtErr.RpPio.io_ca_cpl := false; M_ExtErr.RpPio.io_cto := false;
    M_ExtErr.RpPio.mem_ur_cpl := false; M_ExtErr.RpPio.mem_ca_cpl := false;
    M_ExtErr.RpPio.mem_cto := false |}; M_ExtErr.RpExtensions.rp_pio_mask := {|
    M_ExtErr.RpPio.cfg_ur_cpl := true; M_ExtErr.RpPio.cfg_ca_cpl := true; M_ExtErr.RpPio.cfg_cto
    := true; M_ExtErr.RpPio.io_ur_cpl := true; M_ExtErr.RpPio.io_ca_cpl := true;
    M_ExtErr.RpPio.io_cto := true; M_ExtErr.RpPio.mem_ur_cpl := true; M_ExtErr.RpPio.mem_ca_cpl
    := true; M_ExtErr.RpPio.mem_cto := true |}; M_ExtErr.RpExtensions.rp_pio_severity := {|
    M_ExtErr.RpPio.cfg_ur_cpl := false; M_ExtErr.RpPio.cfg_ca_cpl := false;
    M_ExtErr.RpPio.cfg_cto := false; M_ExtErr.RpPio.io_ur_cpl := false; M_ExtErr.RpPio.io_ca_cpl
    := false; M_ExtErr.RpPio.io_cto := false; M_ExtErr.RpPio.mem_ur_cpl := false;
    M_ExtErr.RpPio.mem_ca_cpl := false; M_ExtErr.RpPio.mem_cto := false |};
    M_ExtErr.RpExtensions.rp_pio_syserr := {| M_ExtErr.RpPio.cfg_ur_cpl := false;
    M_ExtErr.RpPio.cfg_ca_cpl := false; M_ExtErr.RpPio.cfg_cto := false; M_ExtErr.RpPio.io_ur_cpl
    := false; M_ExtErr.RpPio.io_ca_cpl := false; M_ExtErr.RpPio.io_cto := false;
    M_ExtErr.RpPio.mem_ur_cpl := false; M_ExtErr.RpPio.mem_ca_cpl := false;
    M_ExtErr.RpPio.mem_cto := false |}; M_ExtErr.RpExtensions.rp_pio_exception := {|
    M_ExtErr.RpPio.cfg_ur_cpl := false; M_ExtErr.RpPio.cfg_ca_cpl := false;
    M_ExtErr.RpPio.cfg_cto := false; M_ExtErr.RpPio.io_ur_cpl := false; M_ExtErr.RpPio.io_ca_cpl
    := false; M_ExtErr.RpPio.io_cto := false; M_ExtErr.RpPio.mem_ur_cpl := false;
    M_ExtErr.RpPio.mem_ca_cpl := false; M_ExtErr.RpPio.mem_cto := false |};
    M_ExtErr.RpExtensions.rp_pio_header_log := (M_ExtErr.HeaderLog.mk [1; 2; 3; 4]);
    M_ExtErr.RpExtensions.rp_pio_impspec_log := (Some 66);
    M_ExtErr.RpExtensions.rp_pio_tlp_prefix_log := (Some (M_ExtErr.TlpPrefixLog.mk [17; 34; 0;
    0])) |}) |}.
Proof. vm_compute. reflexivity. Qed.

(* src/extended_capabilities/dynamic_power_allocation.rs:23, documentation example *)
Example dynamic_power_allocation_doc_23 :
  M_ExtMid.DynamicPowerAllocation.try_from [12; 0; 1; 0; 3; 34; 85; 170; 0; 17; 34; 51; 3; 1; 3;
    0; 0; 17; 34; 51] =
  Ok {| M_ExtMid.DynamicPowerAllocation.dpa_capability := {| M_ExtMid.DpaCapability.substate_max
    := 3; M_ExtMid.DpaCapability.transition_latency_unit :=
    M_ExtMid.TransitionLatencyUnit.Unit100ms; M_ExtMid.DpaCapability.power_allocation_scale :=
    M_ExtMid.PowerAllocationScale.Mul0_1; M_ExtMid.DpaCapability.transition_latency_value_0 :=
    85; M_ExtMid.DpaCapability.transition_latency_value_1 := 170 |};
    M_ExtMid.DynamicPowerAllocation.dpa_latency_indicator := 857870592;
    M_ExtMid.DynamicPowerAllocation.dpa_status := {| M_ExtMid.DpaStatus.substate_status := 3;
    M_ExtMid.DpaStatus.substate_control_enabled := true |};
    M_ExtMid.DynamicPowerAllocation.dpa_control := {| M_ExtMid.DpaControl.substate_control := 3
    |}; M_ExtMid.DynamicPowerAllocation.dpa_power_allocation_array :=
    (M_ExtMid.DpaPowerAllocationArray.mk [0; 17; 34; 51]) |}.
Proof. vm_compute. reflexivity. Qed.

(* src/extended_capabilities/frs_queuing.rs:18, documentation example *)
Example frs_queuing_doc_18 :
  M_ExtSmall.FrsQueuing.try_from [33; 0; 1; 0; 85; 0; 6; 0; 1; 0; 0; 0; 1; 128; 12; 12] =
  Ok {| M_ExtSmall.FrsQueuing.frs_queuing_capability := {|
    M_ExtSmall.FrsQueuingCapability.frs_queue_max_depth := 85;
    M_ExtSmall.FrsQueuingCapability.frs_interrupt_message_number := 6 |};
    M_ExtSmall.FrsQueuing.frs_queuing_status := {|
    M_ExtSmall.FrsQueuingStatus.frs_message_received := true;
    M_ExtSmall.FrsQueuingStatus.frs_message_overflow := false |};
    M_ExtSmall.FrsQueuing.frs_queuing_control := {|
    M_ExtSmall.FrsQueuingControl.frs_interrupt_enable := false |};
    M_ExtSmall.FrsQueuing.frs_message_queue := {|
    M_ExtSmall.FrsMessageQueue.frs_message_queue_function_id := 32769;
    M_ExtSmall.FrsMessageQueue.frs_message_queue_reason := 12;
    M_ExtSmall.FrsMessageQueue.frs_message_queue_depth := 192 |} |}.
Proof. vm_compute. reflexivity. Qed.

(* src/extended_capabilities/l1_pm_substates.rs:27, documentation example *)
Example l1_pm_substates_doc_27 :
  M_ExtMid.L1PmSubstates.try_from (drop 4 [30; 0; 1; 34; 31; 40; 176; 0; 15; 255; 80; 64; 176; 0;
    0; 0]) =
  Ok {| M_ExtMid.L1PmSubstates.l1_pm_substates_capabilities := {|
    M_ExtMid.L1PmSubstatesCapabilities.pci_pm_l1_2_supported := true;
    M_ExtMid.L1PmSubstatesCapabilities.pci_pm_l1_1_supported := true;
    M_ExtMid.L1PmSubstatesCapabilities.aspm_l1_2_supported := true;
    M_ExtMid.L1PmSubstatesCapabilities.aspm_l1_1_supported := true;
    M_ExtMid.L1PmSubstatesCapabilities.l1_pm_substates_supported := true;
    M_ExtMid.L1PmSubstatesCapabilities.port_common_mode_restore_time := 40;
    M_ExtMid.L1PmSubstatesCapabilities.port_t_power_on := {| M_ExtMid.PortTPowerOn.value := 22;
    M_ExtMid.PortTPowerOn.scale := M_ExtMid.PortTPowerOnScale.Time2us |} |};
    M_ExtMid.L1PmSubstates.l1_pm_substates_control_1 := {|
    M_ExtMid.L1PmSubstatesControl1.pci_pm_l1_2_enable := true;
    M_ExtMid.L1PmSubstatesControl1.pci_pm_l1_1_enable := true;
    M_ExtMid.L1PmSubstatesControl1.aspm_l1_2_enable := true;
    M_ExtMid.L1PmSubstatesControl1.aspm_l1_1_enable := true;
    M_ExtMid.L1PmSubstatesControl1.common_mode_restore_time := 255;
    M_ExtMid.L1PmSubstatesControl1.ltr_l1_2_threshold := {| M_ExtSmall.MaxLatency.value := 80;
    M_ExtSmall.MaxLatency.scale := 2 |} |}; M_ExtMid.L1PmSubstates.l1_pm_substates_control_2 :=
    {| M_ExtMid.L1PmSubstatesControl2.t_power_on := {| M_ExtMid.PortTPowerOn.value := 22;
    M_ExtMid.PortTPowerOn.scale := M_ExtMid.PortTPowerOnScale.Time2us |} |} |}.
Proof. vm_compute. reflexivity. Qed.

(* src/extended_capabilities/l1_pm_substates.rs:324, test [from_bytes_into_struct] *)
Example l1_pm_substates_from_bytes_into_struct_324 :
  M_ExtMid.L1PmSubstates.try_from (drop 4 [30; 0; 129; 18; 31; 255; 40; 0; 3; 0; 50; 64; 176; 0;
    0; 0]) =
  Ok {| M_ExtMid.L1PmSubstates.l1_pm_substates_capabilities := {|
    M_ExtMid.L1PmSubstatesCapabilities.pci_pm_l1_2_supported := true;
    M_ExtMid.L1PmSubstatesCapabilities.pci_pm_l1_1_supported := true;
    M_ExtMid.L1PmSubstatesCapabilities.aspm_l1_2_supported := true;
    M_ExtMid.L1PmSubstatesCapabilities.aspm_l1_1_supported := true;
    M_ExtMid.L1PmSubstatesCapabilities.l1_pm_substates_supported := true;
    M_ExtMid.L1PmSubstatesCapabilities.port_common_mode_restore_time := 255;
    M_ExtMid.L1PmSubstatesCapabilities.port_t_power_on := {| M_ExtMid.PortTPowerOn.value := 5;
    M_ExtMid.PortTPowerOn.scale := M_ExtMid.PortTPowerOnScale.Time2us |} |};
    M_ExtMid.L1PmSubstates.l1_pm_substates_control_1 := {|
    M_ExtMid.L1PmSubstatesControl1.pci_pm_l1_2_enable := true;
    M_ExtMid.L1PmSubstatesControl1.pci_pm_l1_1_enable := true;
    M_ExtMid.L1PmSubstatesControl1.aspm_l1_2_enable := false;
    M_ExtMid.L1PmSubstatesControl1.aspm_l1_1_enable := false;
    M_ExtMid.L1PmSubstatesControl1.common_mode_restore_time := 0;
    M_ExtMid.L1PmSubstatesControl1.ltr_l1_2_threshold := {| M_ExtSmall.MaxLatency.value := 50;
    M_ExtSmall.MaxLatency.scale := 2 |} |}; M_ExtMid.L1PmSubstates.l1_pm_substates_control_2 :=
    {| M_ExtMid.L1PmSubstatesControl2.t_power_on := {| M_ExtMid.PortTPowerOn.value := 22;
    M_ExtMid.PortTPowerOn.scale := M_ExtMid.PortTPowerOnScale.Time2us |} |} |}.
Proof. vm_compute. reflexivity. Qed.

(* src/extended_capabilities/l1_pm_substates.rs:330, test [from_capabilities_into_dword] *)
Example l1_pm_substates_from_capabilities_into_dword_330 :
  M_ExtMid.L1PmSubstatesCapabilities.to_u32 {|
    M_ExtMid.L1PmSubstatesCapabilities.pci_pm_l1_2_supported := true;
    M_ExtMid.L1PmSubstatesCapabilities.pci_pm_l1_1_supported := true;
    M_ExtMid.L1PmSubstatesCapabilities.aspm_l1_2_supported := true;
    M_ExtMid.L1PmSubstatesCapabilities.aspm_l1_1_supported := true;
    M_ExtMid.L1PmSubstatesCapabilities.l1_pm_substates_supported := true;
    M_ExtMid.L1PmSubstatesCapabilities.port_common_mode_restore_time := 255;
    M_ExtMid.L1PmSubstatesCapabilities.port_t_power_on := {| M_ExtMid.PortTPowerOn.value := 5;
    M_ExtMid.PortTPowerOn.scale := M_ExtMid.PortTPowerOnScale.Time2us |} |} =
  le [31; 255; 40; 0].
Proof. vm_compute. reflexivity. Qed.

(* src/extended_capabilities/l1_pm_substates.rs:339, test [from_control_1_into_dword] *)
Example l1_pm_substates_from_control_1_into_dword_339 :
  M_ExtMid.L1PmSubstatesControl1.to_u32 {| M_ExtMid.L1PmSubstatesControl1.pci_pm_l1_2_enable :=
    true; M_ExtMid.L1PmSubstatesControl1.pci_pm_l1_1_enable := true;
    M_ExtMid.L1PmSubstatesControl1.aspm_l1_2_enable := false;
    M_ExtMid.L1PmSubstatesControl1.aspm_l1_1_enable := false;
    M_ExtMid.L1PmSubstatesControl1.common_mode_restore_time := 0;
    M_ExtMid.L1PmSubstatesControl1.ltr_l1_2_threshold := {| M_ExtSmall.MaxLatency.value := 50;
    M_ExtSmall.MaxLatency.scale := 2 |} |} =
  le [3; 0; 50; 64].
Proof. vm_compute. reflexivity. Qed.

(* src/extended_capabilities/l1_pm_substates.rs:348, test [from_control_2_into_dword] *)
Example l1_pm_substates_from_control_2_into_dword_348 :
  M_ExtMid.L1PmSubstatesControl2.to_u32 {| M_ExtMid.L1PmSubstatesControl2.t_power_on := {|
    M_ExtMid.PortTPowerOn.value := 22; M_ExtMid.PortTPowerOn.scale :=
    M_ExtMid.PortTPowerOnScale.Time2us |} |} =
  le [176; 0; 0; 0].
Proof. vm_compute. reflexivity. Qed.

(* src/extended_capabilities/latency_tolerance_reporting.rs:19, documentation example *)
Example latency_tolerance_reporting_doc_19 :
  M_ExtSmall.LatencyToleranceReporting.try_from (drop 4 [24; 0; 1; 29; 70; 8; 70; 8]) =
  Ok {| M_ExtSmall.LatencyToleranceReporting.max_snoop_latency := {| M_ExtSmall.MaxLatency.value
    := 70; M_ExtSmall.MaxLatency.scale := 2 |};
    M_ExtSmall.LatencyToleranceReporting.max_no_snoop_latency := {| M_ExtSmall.MaxLatency.value
    := 70; M_ExtSmall.MaxLatency.scale := 2 |} |}.
Proof. vm_compute. reflexivity. Qed.

(* src/extended_capabilities/ln_requester.rs:15, documentation example *)
Example ln_requester_doc_15 :
  M_ExtSmall.LnRequester.try_from [28; 0; 1; 0; 1; 19; 1; 19] =
  Ok {| M_ExtSmall.LnRequester.lnr_capability := {| M_ExtSmall.LnrCapability.lnr_64_supported :=
    true; M_ExtSmall.LnrCapability.lnr_128_supported := false;
    M_ExtSmall.LnrCapability.lnr_registration_max := 19 |}; M_ExtSmall.LnRequester.lnr_control :=
    {| M_ExtSmall.LnrControl.lnr_enable := true; M_ExtSmall.LnrControl.lnr_cls := false;
    M_ExtSmall.LnrControl.lnr_registration_limit := 19 |} |}.
Proof. vm_compute. reflexivity. Qed.

(* src/extended_capabilities/multicast.rs:18, documentation example *)
Example multicast_doc_18 :
  M_ExtSmall.Multicast.try_from [12; 0; 1; 0; 42; 143; 32; 128; 15; 16; 32; 48; 64; 80; 96; 112;
    0; 0; 0; 0; 17; 17; 17; 17; 34; 34; 34; 34; 51; 51; 51; 51; 68; 68; 68; 68; 85; 85; 85; 85;
    10; 17; 34; 51; 68; 85; 102; 119] =
  Ok {| M_ExtSmall.Multicast.multicast_capability := {|
    M_ExtSmall.MulticastCapability.mc_max_group := 42;
    M_ExtSmall.MulticastCapability.mc_window_size_requested := 15;
    M_ExtSmall.MulticastCapability.mc_ecrc_regeneration_supported := true |};
    M_ExtSmall.Multicast.multicast_control := {| M_ExtSmall.MulticastControl.mc_num_group := 32;
    M_ExtSmall.MulticastControl.mc_enable := true |}; M_ExtSmall.Multicast.mc_base_address := {|
    M_ExtSmall.McBaseAddress.mc_index_position := 15; M_ExtSmall.McBaseAddress.mc_base_address :=
    8097560366627688448 |}; M_ExtSmall.Multicast.mc_receive := 1229782937960972288;
    M_ExtSmall.Multicast.mc_block_all := 3689348814455579170;
    M_ExtSmall.Multicast.mc_block_untranslated := 6148914690950186052;
    M_ExtSmall.Multicast.mc_overlay_bar := (Some {| M_ExtSmall.McOverlayBar.mc_overlay_size :=
    10; M_ExtSmall.McOverlayBar.mc_overlay_bar := 8603657889541918976 |}) |}.
Proof. vm_compute. reflexivity. Qed.

(* src/extended_capabilities/multifunction_virtual_channel.rs:34, documentation example *)
Example multifunction_virtual_channel_doc_34 :
  M_ExtMfvc.MultifunctionVirtualChannel.try_from [8; 0; 1; 0; 1; 4; 0; 0; 15; 0; 0; 0; 2; 0; 0;
    0; 7; 0; 0; 0; 255; 0; 4; 128; 0; 0; 2; 0] =
  (evcs <- M_ExtMfvc.ExtendedVirtualChannels.new (take 16 [8; 0; 1; 0; 1; 4; 0; 0; 15; 0; 0; 0;
    2; 0; 0; 0; 7; 0; 0; 0; 255; 0; 4; 128; 0; 0; 2; 0] ++
    M_ExtMfvc.ExtendedVirtualChannel.to_bytes {|
    M_ExtMfvc.ExtendedVirtualChannel.vc_resource_capability := {|
    M_ExtMfvc.VcResourceCapability.function_arbitration_capability := {|
    M_ExtMfvc.FunctionArbitrationCapability.hardware_fixed_arbitration := true;
    M_ExtMfvc.FunctionArbitrationCapability.wrr_32_phases := true;
    M_ExtMfvc.FunctionArbitrationCapability.wrr_64_phases := true;
    M_ExtMfvc.FunctionArbitrationCapability.wrr_128_phases := false;
    M_ExtMfvc.FunctionArbitrationCapability.time_based_wrr_128_phases := false;
    M_ExtMfvc.FunctionArbitrationCapability.wrr_256_phases := false;
    M_ExtMfvc.FunctionArbitrationCapability.reserved := 0 |};
    M_ExtMfvc.VcResourceCapability.maximum_time_slots := 0;
    M_ExtMfvc.VcResourceCapability.function_arbitration_table_offset := 0 |};
    M_ExtMfvc.ExtendedVirtualChannel.vc_resource_control := {|
    M_ExtMfvc.VcResourceControl.tc_to_vc_map := 255;
    M_ExtMfvc.VcResourceControl.load_function_arbitration_table := false;
    M_ExtMfvc.VcResourceControl.function_arbitration_select :=
    M_ExtMfvc.FunctionArbitrationSelect.Wrr64phases; M_ExtMfvc.VcResourceControl.vc_id := 0;
    M_ExtMfvc.VcResourceControl.vc_enable := true |};
    M_ExtMfvc.ExtendedVirtualChannel.vc_resource_status := {|
    M_ExtMfvc.VcResourceStatus.function_arbitration_table_status := false;
    M_ExtMfvc.VcResourceStatus.vc_negotiation_pending := true |};
    M_ExtMfvc.ExtendedVirtualChannel.function_arbitration_table := None |}) 1 2 ;; Ok {|
    M_ExtMfvc.MultifunctionVirtualChannel.port_vc_capability_1 := {|
    M_ExtMfvc.PortVcCapability1.extended_vc_count := 1;
    M_ExtMfvc.PortVcCapability1.low_priority_extended_vc_count := 0;
    M_ExtMfvc.PortVcCapability1.reference_clock := M_ExtVc.ReferenceClock.Rc100ns;
    M_ExtMfvc.PortVcCapability1.function_arbitration_table_entry_size :=
    (M_ExtMfvc.FunctionArbitrationTableEntrySize.mk 1) |};
    M_ExtMfvc.MultifunctionVirtualChannel.port_vc_capability_2 := {|
    M_ExtVc.PortVcCapability2.vc_arbitration_capability := {|
    M_ExtVc.VcArbitrationCapability.hardware_fixed_arbitration := true;
    M_ExtVc.VcArbitrationCapability.wrr_32_phases := true;
    M_ExtVc.VcArbitrationCapability.wrr_64_phases := true;
    M_ExtVc.VcArbitrationCapability.wrr_128_phases := true;
    M_ExtVc.VcArbitrationCapability.reserved := 0 |};
    M_ExtVc.PortVcCapability2.vc_arbitration_table_offset := 0 |};
    M_ExtMfvc.MultifunctionVirtualChannel.port_vc_control := {|
    M_ExtVc.PortVcControl.load_vc_arbitration_table := false;
    M_ExtVc.PortVcControl.vc_arbitration_select := M_ExtVc.VcArbitrationSelect.Wrr32phases |};
    M_ExtMfvc.MultifunctionVirtualChannel.port_vc_status := {|
    M_ExtVc.PortVcStatus.vc_arbitration_table_status := false |};
    M_ExtMfvc.MultifunctionVirtualChannel.vc_arbitration_table := None;
    M_ExtMfvc.MultifunctionVirtualChannel.extended_virtual_channels := evcs |}).
Proof. vm_compute. reflexivity. Qed.

(* src/extended_capabilities/multifunction_virtual_channel.rs:651, test [function_arbitration_table_1_bit_entry] *)
Example multifunction_virtual_channel_function_arbitration_table_1_bit_entry_651 :
  first_items (M_ExtMfvc.FunctionArbitrationTable.next (E := unit)) 300
    (M_ExtMfvc.FunctionArbitrationTable.new [170; 204; 240; 255] 1) =
  map (fun v => Ok (M_ExtMfvc.FunctionArbitrationTableEntry.mk v)) [0; 1; 0; 1; 0; 1; 0; 1; 0; 0;
    1; 1; 0; 0; 1; 1; 0; 0; 0; 0; 1; 1; 1; 1; 1; 1; 1; 1; 1; 1; 1; 1].
Proof. vm_compute. reflexivity. Qed.

(* src/extended_capabilities/multifunction_virtual_channel.rs:665, test [function_arbitration_table_2_bit_entry] *)
Example multifunction_virtual_channel_function_arbitration_table_2_bit_entry_665 :
  first_items (M_ExtMfvc.FunctionArbitrationTable.next (E := unit)) 300
    (M_ExtMfvc.FunctionArbitrationTable.new [0; 85; 170; 51; 204; 15; 240; 255] 2) =
  map (fun v => Ok (M_ExtMfvc.FunctionArbitrationTableEntry.mk v)) [0; 0; 0; 0; 1; 1; 1; 1; 2; 2;
    2; 2; 3; 0; 3; 0; 0; 3; 0; 3; 3; 3; 0; 0; 0; 0; 3; 3; 3; 3; 3; 3].
Proof. vm_compute. reflexivity. Qed.

(* src/extended_capabilities/multifunction_virtual_channel.rs:687, test [function_arbitration_table_4_bit_entry] *)
Example multifunction_virtual_channel_function_arbitration_table_4_bit_entry_687 :
  first_items (M_ExtMfvc.FunctionArbitrationTable.next (E := unit)) 300
    (M_ExtMfvc.FunctionArbitrationTable.new [0; 17; 34; 51; 68; 85; 102; 119; 136; 153; 170; 187;
    204; 221; 238; 255] 4) =
  map (fun v => Ok (M_ExtMfvc.FunctionArbitrationTableEntry.mk v)) [0; 0; 1; 1; 2; 2; 3; 3; 4; 4;
    5; 5; 6; 6; 7; 7; 8; 8; 9; 9; 10; 10; 11; 11; 12; 12; 13; 13; 14; 14; 15; 15].
Proof. vm_compute. reflexivity. Qed.

(* src/extended_capabilities/multifunction_virtual_channel.rs:704, test [function_arbitration_table_8_bit_entry] *)
Example multifunction_virtual_channel_function_arbitration_table_8_bit_entry_704 :
  first_items (M_ExtMfvc.FunctionArbitrationTable.next (E := unit)) 300
    (M_ExtMfvc.FunctionArbitrationTable.new [0; 1; 2; 3; 4; 5; 6; 7; 8; 9; 10; 11; 12; 13; 14;
    15; 0; 16; 32; 48; 64; 80; 96; 112; 128; 144; 160; 176; 192; 208; 224; 240] 8) =
  map (fun v => Ok (M_ExtMfvc.FunctionArbitrationTableEntry.mk v)) [0; 1; 2; 3; 4; 5; 6; 7; 8; 9;
    10; 11; 12; 13; 14; 15; 0; 16; 32; 48; 64; 80; 96; 112; 128; 144; 160; 176; 192; 208; 224;
    240].
Proof. vm_compute. reflexivity. Qed.

(* src/extended_capabilities/multifunction_virtual_channel.rs:722, test [extended_virtual_channels] *)
Example multifunction_virtual_channel_extended_virtual_channels_722 :
  match M_ExtMfvc.ExtendedVirtualChannels.new (E := unit) [8; 0; 1; 0; 1; 4; 0; 0; 15; 0; 0; 0;
    2; 0; 0; 0; 7; 0; 0; 4; 15; 0; 4; 128; 0; 0; 2; 0; 24; 0; 127; 5; 240; 0; 8; 128; 0; 0; 1; 0]
    1 0 with
  | Ok it => first_items (M_ExtMfvc.ExtendedVirtualChannels.next (E := unit)) 300 it | _ => []
    end =
  map Ok [{| M_ExtMfvc.ExtendedVirtualChannel.vc_resource_capability := {|
    M_ExtMfvc.VcResourceCapability.function_arbitration_capability := {|
    M_ExtMfvc.FunctionArbitrationCapability.hardware_fixed_arbitration := true;
    M_ExtMfvc.FunctionArbitrationCapability.wrr_32_phases := true;
    M_ExtMfvc.FunctionArbitrationCapability.wrr_64_phases := true;
    M_ExtMfvc.FunctionArbitrationCapability.wrr_128_phases := false;
    M_ExtMfvc.FunctionArbitrationCapability.time_based_wrr_128_phases := false;
    M_ExtMfvc.FunctionArbitrationCapability.wrr_256_phases := false;
    M_ExtMfvc.FunctionArbitrationCapability.reserved := 0 |};
    M_ExtMfvc.VcResourceCapability.maximum_time_slots := 0;
    M_ExtMfvc.VcResourceCapability.function_arbitration_table_offset := (64 / 16) |};
    M_ExtMfvc.ExtendedVirtualChannel.vc_resource_control := {|
    M_ExtMfvc.VcResourceControl.tc_to_vc_map := 15;
    M_ExtMfvc.VcResourceControl.load_function_arbitration_table := false;
    M_ExtMfvc.VcResourceControl.function_arbitration_select :=
    M_ExtMfvc.FunctionArbitrationSelect.Wrr64phases; M_ExtMfvc.VcResourceControl.vc_id := 0;
    M_ExtMfvc.VcResourceControl.vc_enable := true |};
    M_ExtMfvc.ExtendedVirtualChannel.vc_resource_status := {|
    M_ExtMfvc.VcResourceStatus.function_arbitration_table_status := false;
    M_ExtMfvc.VcResourceStatus.vc_negotiation_pending := true |};
    M_ExtMfvc.ExtendedVirtualChannel.function_arbitration_table := None |}; {|
    M_ExtMfvc.ExtendedVirtualChannel.vc_resource_capability := {|
    M_ExtMfvc.VcResourceCapability.function_arbitration_capability := {|
    M_ExtMfvc.FunctionArbitrationCapability.hardware_fixed_arbitration := false;
    M_ExtMfvc.FunctionArbitrationCapability.wrr_32_phases := false;
    M_ExtMfvc.FunctionArbitrationCapability.wrr_64_phases := false;
    M_ExtMfvc.FunctionArbitrationCapability.wrr_128_phases := true;
    M_ExtMfvc.FunctionArbitrationCapability.time_based_wrr_128_phases := true;
    M_ExtMfvc.FunctionArbitrationCapability.wrr_256_phases := false;
    M_ExtMfvc.FunctionArbitrationCapability.reserved := 0 |};
    M_ExtMfvc.VcResourceCapability.maximum_time_slots := 127;
    M_ExtMfvc.VcResourceCapability.function_arbitration_table_offset := (80 / 16) |};
    M_ExtMfvc.ExtendedVirtualChannel.vc_resource_control := {|
    M_ExtMfvc.VcResourceControl.tc_to_vc_map := 240;
    M_ExtMfvc.VcResourceControl.load_function_arbitration_table := false;
    M_ExtMfvc.VcResourceControl.function_arbitration_select :=
    M_ExtMfvc.FunctionArbitrationSelect.TimeBasedWrr128phases; M_ExtMfvc.VcResourceControl.vc_id
    := 0; M_ExtMfvc.VcResourceControl.vc_enable := true |};
    M_ExtMfvc.ExtendedVirtualChannel.vc_resource_status := {|
    M_ExtMfvc.VcResourceStatus.function_arbitration_table_status := true;
    M_ExtMfvc.VcResourceStatus.vc_negotiation_pending := false |};
    M_ExtMfvc.ExtendedVirtualChannel.function_arbitration_table := None |}].
Proof. vm_compute. reflexivity. Qed.

(* src/extended_capabilities/page_request_interface.rs:15, documentation example *)
Example page_request_interface_doc_15 :
  M_ExtSmall.PageRequestInterface.try_from (drop 4 [19; 0; 0; 0; 1; 1; 1; 1; 1; 1; 1; 1; 1; 1; 1;
    1]) =
  Ok {| M_ExtSmall.PageRequestInterface.page_request_control := {|
    M_ExtSmall.PageRequestControl.enable := true; M_ExtSmall.PageRequestControl.reset := false
    |}; M_ExtSmall.PageRequestInterface.page_request_status := {|
    M_ExtSmall.PageRequestStatus.response_failure := true;
    M_ExtSmall.PageRequestStatus.unexpected_page_request_group_index := false;
    M_ExtSmall.PageRequestStatus.stopped := true;
    M_ExtSmall.PageRequestStatus.prg_response_pasid_required := false |};
    M_ExtSmall.PageRequestInterface.outstanding_page_request_capacity := 16843009;
    M_ExtSmall.PageRequestInterface.outstanding_page_request_allocation := 16843009 |}.
Proof. vm_compute. reflexivity. Qed.

(* src/extended_capabilities/pci_express_over_m_phy.rs:24, documentation example *)
Example pci_express_over_m_phy_doc_24 :
  M_ExtMid.PciExpressOverMphy.try_from [32; 0; 1; 0; 1; 128; 15; 15; 1; 0; 0; 0; 1; 128; 12; 12;
    0; 17; 34; 51; 85; 0; 10; 193; 19; 0; 0; 64] =
  Ok {| M_ExtMid.PciExpressOverMphy.mpcie_capabilities := {|
    M_ExtMid.MpcieCapabilities.mpcie_link_speed_capability := {| M_ExtMid.MpcieLinkSpeed.hs_g1 :=
    true; M_ExtMid.MpcieLinkSpeed.hs_g2 := false |};
    M_ExtMid.MpcieCapabilities.configuration_software_supported := true;
    M_ExtMid.MpcieCapabilities.maximum_tx_lane_width_capability := {|
    M_ExtMid.LaneWidthSupported.x1 := true; M_ExtMid.LaneWidthSupported.x2 := true;
    M_ExtMid.LaneWidthSupported.x4 := true; M_ExtMid.LaneWidthSupported.x8 := true;
    M_ExtMid.LaneWidthSupported.x12 := false; M_ExtMid.LaneWidthSupported.x16 := false;
    M_ExtMid.LaneWidthSupported.x32 := false |};
    M_ExtMid.MpcieCapabilities.maximum_rx_lane_width_capability := {|
    M_ExtMid.LaneWidthSupported.x1 := true; M_ExtMid.LaneWidthSupported.x2 := true;
    M_ExtMid.LaneWidthSupported.x4 := true; M_ExtMid.LaneWidthSupported.x8 := true;
    M_ExtMid.LaneWidthSupported.x12 := false; M_ExtMid.LaneWidthSupported.x16 := false;
    M_ExtMid.LaneWidthSupported.x32 := false |} |}; M_ExtMid.PciExpressOverMphy.mpcie_control :=
    {| M_ExtMid.MpcieControl.mpcie_target_link_speed_control := {| M_ExtMid.MpcieLinkSpeed.hs_g1
    := true; M_ExtMid.MpcieLinkSpeed.hs_g2 := false |} |};
    M_ExtMid.PciExpressOverMphy.mpcie_status := {|
    M_ExtMid.MpcieStatus.mpcie_current_link_speed_status := {| M_ExtMid.MpcieLinkSpeed.hs_g1 :=
    true; M_ExtMid.MpcieLinkSpeed.hs_g2 := false |};
    M_ExtMid.MpcieStatus.mpcie_configuration_software_status := true;
    M_ExtMid.MpcieStatus.tx_lane_width_status := M_ExtMid.LaneWidthStatus.X12;
    M_ExtMid.MpcieStatus.rx_lane_width_status := M_ExtMid.LaneWidthStatus.X12 |};
    M_ExtMid.PciExpressOverMphy.mpcie_lane_error_status := 857870592;
    M_ExtMid.PciExpressOverMphy.mpcie_phy_control_address := {|
    M_ExtMid.MpciePhyControlAddress.lower_addr := 85; M_ExtMid.MpciePhyControlAddress.upper_addr
    := 42; M_ExtMid.MpciePhyControlAddress.phy_location := M_ExtMid.PhyLocation.LocalPhy;
    M_ExtMid.MpciePhyControlAddress.read := true; M_ExtMid.MpciePhyControlAddress.config := true
    |}; M_ExtMid.PciExpressOverMphy.mpcie_phy_control_data := {|
    M_ExtMid.MpciePhyControlData.phy_register_data := 19;
    M_ExtMid.MpciePhyControlData.phy_control_error := false;
    M_ExtMid.MpciePhyControlData.rrap_abort_a := true;
    M_ExtMid.MpciePhyControlData.phy_control_pending := false |} |}.
Proof. vm_compute. reflexivity. Qed.

(* src/extended_capabilities/power_budgeting.rs:20, documentation example *)
Example power_budgeting_doc_20 :
  M_ExtSmall.PowerBudgeting.try_from (drop 4 [4; 0; 1; 22; 0; 0; 0; 0; 27; 129; 7; 0; 1; 0; 0;
    0]) =
  Ok {| M_ExtSmall.PowerBudgeting.data_select := 0; M_ExtSmall.PowerBudgeting.data := {|
    M_ExtSmall.Data.base_power := (M_ExtSmall.BasePower.Value 27); M_ExtSmall.Data.data_scale :=
    M_ExtSmall.DataScale.Deci; M_ExtSmall.Data.pm_sub_state := M_ExtSmall.PmSubState.Default;
    M_ExtSmall.Data.pm_state := M_ExtSmall.PmState.D0; M_ExtSmall.Data.operation_condition_type
    := M_ExtSmall.OperationConditionType.Maximum; M_ExtSmall.Data.power_rail :=
    M_ExtSmall.PowerRail.Power3_3v |}; M_ExtSmall.PowerBudgeting.power_budget_capability := {|
    M_ExtSmall.PowerBudgetCapability.system_allocated := true |} |}.
Proof. vm_compute. reflexivity. Qed.

(* src/extended_capabilities/precision_time_measurement.rs:21, documentation example *)
Example precision_time_measurement_doc_21 :
  M_ExtSmall.PrecisionTimeMeasurement.try_from (drop 4 [31; 0; 1; 34; 6; 4; 0; 0; 0; 0; 0; 0]) =
  Ok {| M_ExtSmall.PrecisionTimeMeasurement.ptm_capability := {|
    M_ExtSmall.PtmCapability.ptm_requester_capable := false;
    M_ExtSmall.PtmCapability.ptm_responder_capable := true;
    M_ExtSmall.PtmCapability.ptm_root_capable := true;
    M_ExtSmall.PtmCapability.local_clock_granularity := 4 |};
    M_ExtSmall.PrecisionTimeMeasurement.ptm_control := {| M_ExtSmall.PtmControl.ptm_enable :=
    false; M_ExtSmall.PtmControl.root_select := false;
    M_ExtSmall.PtmControl.effective_granularity := 0 |} |}.
Proof. vm_compute. reflexivity. Qed.

(* src/extended_capabilities/process_address_space_id.rs:14, documentation example *)
Example process_address_space_id_doc_14 :
  M_ExtSmall.ProcessAddressSpaceId.try_from (drop 4 [27; 0; 0; 0; 2; 4; 3; 0]) =
  Ok {| M_ExtSmall.ProcessAddressSpaceId.pacid_capability := {|
    M_ExtSmall.PacidCapability.execute_permission_supported := true;
    M_ExtSmall.PacidCapability.privileged_mode_supported := false;
    M_ExtSmall.PacidCapability.max_pasid_width := 4 |};
    M_ExtSmall.ProcessAddressSpaceId.pacid_control := {| M_ExtSmall.PacidControl.pasid_enable :=
    true; M_ExtSmall.PacidControl.execute_permission_enable := true;
    M_ExtSmall.PacidControl.privileged_mode_enable := false |} |}.
Proof. vm_compute. reflexivity. Qed.

(* src/extended_capabilities/protocol_multiplexing.rs:21, documentation example *)
Example protocol_multiplexing_doc_21 :
  M_ExtVec.ProtocolMultiplexing.try_from [1; 0; 1; 0; 2; 12; 0; 0; 1; 2; 3; 4; 0; 1; 2; 4; 18;
    52; 86; 120; 17; 34; 51; 68] =
  Ok {| M_ExtVec.ProtocolMultiplexing.pmux_capability := {|
    M_ExtVec.PmuxCapability.pmux_protocol_array_size := 2;
    M_ExtVec.PmuxCapability.pmux_supported_link_speeds := {|
    M_ExtVec.PmuxSupportedLinkSpeeds.speed_2_5_gtps := false;
    M_ExtVec.PmuxSupportedLinkSpeeds.speed_5_0_gtps := false;
    M_ExtVec.PmuxSupportedLinkSpeeds.speed_8_0_gtps := true;
    M_ExtVec.PmuxSupportedLinkSpeeds.speed_16_0_gtps := true |} |};
    M_ExtVec.ProtocolMultiplexing.pmux_control := {|
    M_ExtVec.PmuxControl.pmux_channel_0_assignment := 1;
    M_ExtVec.PmuxControl.pmux_channel_1_assignment := 2;
    M_ExtVec.PmuxControl.pmux_channel_2_assignment := 3;
    M_ExtVec.PmuxControl.pmux_channel_3_assignment := 4 |};
    M_ExtVec.ProtocolMultiplexing.pmux_status := {|
    M_ExtVec.PmuxStatus.pmux_channel_0_disabled_link_speed := false;
    M_ExtVec.PmuxStatus.pmux_channel_0_disabled_link_width := false;
    M_ExtVec.PmuxStatus.pmux_channel_0_disabled_link_protocol_specific := false;
    M_ExtVec.PmuxStatus.pmux_channel_1_disabled_link_speed := true;
    M_ExtVec.PmuxStatus.pmux_channel_1_disabled_link_width := false;
    M_ExtVec.PmuxStatus.pmux_channel_1_disabled_link_protocol_specific := false;
    M_ExtVec.PmuxStatus.pmux_channel_2_disabled_link_speed := false;
    M_ExtVec.PmuxStatus.pmux_channel_2_disabled_link_width := true;
    M_ExtVec.PmuxStatus.pmux_channel_2_disabled_link_protocol_specific := false;
    M_ExtVec.PmuxStatus.pmux_channel_3_disabled_link_speed := false;
    M_ExtVec.PmuxStatus.pmux_channel_3_disabled_link_width := false;
    M_ExtVec.PmuxStatus.pmux_channel_3_disabled_link_protocol_specific := true |};
    M_ExtVec.ProtocolMultiplexing.pmux_protocol_array := (M_ExtVec.PmuxProtocolArray.new
    (flat_map M_ExtVec.PmuxProtocolArrayEntry.to_bytes [{|
    M_ExtVec.PmuxProtocolArrayEntry.protocol_id := 13330;
    M_ExtVec.PmuxProtocolArrayEntry.authority_id := 30806 |}; {|
    M_ExtVec.PmuxProtocolArrayEntry.protocol_id := 8721;
    M_ExtVec.PmuxProtocolArrayEntry.authority_id := 17459 |}])) |}.
Proof. vm_compute. reflexivity. Qed.

(* src/extended_capabilities/readiness_time_reporting.rs:14, documentation example *)
Example readiness_time_reporting_doc_14 :
  M_ExtSmall.ReadinessTimeReporting.try_from [34; 0; 1; 0; 17; 34; 51; 128; 68; 85; 102; 0] =
  Ok {| M_ExtSmall.ReadinessTimeReporting.reset_time := {| M_ExtSmall.ReadinessTime.value := 17;
    M_ExtSmall.ReadinessTime.scale := 1 |}; M_ExtSmall.ReadinessTimeReporting.dl_up_time := {|
    M_ExtSmall.ReadinessTime.value := (N.lor 50 256); M_ExtSmall.ReadinessTime.scale := 1 |};
    M_ExtSmall.ReadinessTimeReporting.valid := true; M_ExtSmall.ReadinessTimeReporting.flr_time
    := {| M_ExtSmall.ReadinessTime.value := (N.lor 68 256); M_ExtSmall.ReadinessTime.scale := 2
    |}; M_ExtSmall.ReadinessTimeReporting.d3hot_to_d0_time := {| M_ExtSmall.ReadinessTime.value
    := 101; M_ExtSmall.ReadinessTime.scale := 3 |} |}.
Proof. vm_compute. reflexivity. Qed.

(* src/extended_capabilities/resizable_bar.rs:17, documentation example *)
Example resizable_bar_doc_17_1 :
  match M_ExtVec.ResizableBar.try_from [21; 0; 1; 0; 0; 17; 34; 68; 64; 3; 36; 1; 16; 32; 64;
    128; 1; 15; 16; 66] with Ok it => first_items M_ExtVec.ResizableBar.next 300 it | _ => [] end =
  [{| M_ExtVec.ResizableBarEntry.capability := {|
    M_ExtVec.ResizableBarCapability.support_map_from_1mb_to_128tb := 1143083264 |};
    M_ExtVec.ResizableBarEntry.control := {| M_ExtVec.ResizableBarControl.bar_index := 0;
    M_ExtVec.ResizableBarControl.number_of_resizable_bars := 2;
    M_ExtVec.ResizableBarControl.bar_size := 3;
    M_ExtVec.ResizableBarControl.support_map_from_256tb_to_8eb := 292 |} |}; {|
    M_ExtVec.ResizableBarEntry.capability := {|
    M_ExtVec.ResizableBarCapability.support_map_from_1mb_to_128tb := 2151686160 |};
    M_ExtVec.ResizableBarEntry.control := {| M_ExtVec.ResizableBarControl.bar_index := 1;
    M_ExtVec.ResizableBarControl.number_of_resizable_bars := 0;
    M_ExtVec.ResizableBarControl.bar_size := 15;
    M_ExtVec.ResizableBarControl.support_map_from_256tb_to_8eb := 16912 |} |}].
Proof. vm_compute. reflexivity. Qed.

(* src/extended_capabilities/resizable_bar.rs:17, documentation example *)
Example resizable_bar_doc_17_2 :
  match M_ExtVec.ResizableBar.try_from [21; 0; 1; 0; 0; 17; 34; 68; 64; 3; 36; 1; 16; 32; 64;
    128; 1; 15; 16; 66] with
  | Ok it =>
      match nth_error (first_items M_ExtVec.ResizableBar.next 300 it) 1 with
      | Some second_entry =>
          flat_map (fun '(n, s) => if
            M_ExtVec.ResizableBarEntry.is_function_supports_power_of_two second_entry (N.of_nat n
            + 20) then [s] else [])
            (combine (List.seq 0 44) M_ExtVec.ResizableBarEntry.BAR_SIZES)
      | None => []
      end
  | _ => [] end =
  ["1MB"; "512MB"; "256GB"; "128TB"; "4PB"; "128PB"; "4EB"]%string.
Proof. vm_compute. reflexivity. Qed.

(* src/extended_capabilities/root_complex_event_collector_endpoint_association.rs:18, documentation example *)
Example root_complex_event_collector_endpoint_association_doc_18 :
  M_ExtSmall.RootComplexEventCollectorEndpointAssociation.try_from (drop 4 [7; 0; 0; 0; 68; 51;
    34; 17]) =
  Ok {| M_ExtSmall.RootComplexEventCollectorEndpointAssociation.association_bitmap_for_rcieps :=
    287454020 |}.
Proof. vm_compute. reflexivity. Qed.

(* src/extended_capabilities/root_complex_internal_link_control.rs:27, documentation example *)
Example root_complex_internal_link_control_doc_27 :
  M_ExtSmall.RootComplexInternalLinkControl.try_from (drop 4 [6; 0; 0; 0; 85; 85; 85; 85; 85; 85;
    85; 85]) =
  Ok {| M_ExtSmall.RootComplexInternalLinkControl.root_complex_link_capabilities := {|
    M_ExtSmall.RootComplexLinkCapabilities.max_link_speed := M_Pcie.LinkSpeed.Rate32GTps;
    M_ExtSmall.RootComplexLinkCapabilities.maximum_link_width := (M_Pcie.LinkWidth.Reserved 21);
    M_ExtSmall.RootComplexLinkCapabilities.active_state_power_management_support :=
    M_Pcie.ActiveStatePowerManagement.L0s;
    M_ExtSmall.RootComplexLinkCapabilities.l0s_exit_latency :=
    M_Pcie.L0sExitLatency.Ge1usAndLt2us; M_ExtSmall.RootComplexLinkCapabilities.l1_exit_latency
    := M_Pcie.L1ExitLatency.Ge2usAndLt4us;
    M_ExtSmall.RootComplexLinkCapabilities.supported_link_speeds_vector := {|
    M_Pcie.SupportedLinkSpeedsVector.speed_2_5_gtps := true;
    M_Pcie.SupportedLinkSpeedsVector.speed_5_0_gtps := false;
    M_Pcie.SupportedLinkSpeedsVector.speed_8_0_gtps := true;
    M_Pcie.SupportedLinkSpeedsVector.speed_16_0_gtps := false;
    M_Pcie.SupportedLinkSpeedsVector.speed_32_0_gtps := true;
    M_Pcie.SupportedLinkSpeedsVector.speed_64_0_gtps := false;
    M_Pcie.SupportedLinkSpeedsVector.reserved := true |} |};
    M_ExtSmall.RootComplexInternalLinkControl.root_complex_link_control := {|
    M_ExtSmall.RootComplexLinkControl.active_state_power_management_control :=
    M_Pcie.ActiveStatePowerManagement.L0s; M_ExtSmall.RootComplexLinkControl.extended_synch :=
    false |}; M_ExtSmall.RootComplexInternalLinkControl.root_complex_link_status := {|
    M_ExtSmall.RootComplexLinkStatus.current_link_speed := M_Pcie.LinkSpeed.Rate32GTps;
    M_ExtSmall.RootComplexLinkStatus.negotiated_link_width := (M_Pcie.LinkWidth.Reserved 21) |}
    |}.
Proof. vm_compute. reflexivity. Qed.

(* src/extended_capabilities/root_complex_link_declaration.rs:22, documentation example *)
Example root_complex_link_declaration_doc_22 :
  match M_ExtRcld.RootComplexLinkDeclaration.try_from (drop 4 [5; 0; 1; 28; 0; 1; 1; 3; 0; 0; 0;
    0; 0; 0; 0; 0; 1; 0; 1; 0; 0; 0; 0; 0; 0; 144; 209; 254; 0; 0; 0; 0]) with
  | Ok r => fst (M_ExtRcld.LinkEntries.next (M_ExtRcld.RootComplexLinkDeclaration.link_entries
    r)) | _ => None end =
  Some {| M_ExtRcld.LinkEntry.link_description := {| M_ExtRcld.LinkDescription.target_port_number
    := 0; M_ExtRcld.LinkDescription.target_component_id := 1;
    M_ExtRcld.LinkDescription.associate_rcrb_header := false; M_ExtRcld.LinkDescription.link_type
    := 0; M_ExtRcld.LinkDescription.link_valid := true |}; M_ExtRcld.LinkEntry.link_address :=
    (M_ExtRcld.LinkAddress.MemoryMappedSpace 4275146752) |}.
Proof. vm_compute. reflexivity. Qed.

(* src/extended_capabilities/root_complex_link_declaration.rs:430, test [link_description] *)
Example root_complex_link_declaration_link_description_430 :
  M_ExtRcld.LinkDescription.from 2863267845 =
  {| M_ExtRcld.LinkDescription.link_valid := true; M_ExtRcld.LinkDescription.link_type := 0;
    M_ExtRcld.LinkDescription.associate_rcrb_header := true;
    M_ExtRcld.LinkDescription.target_component_id := 170;
    M_ExtRcld.LinkDescription.target_port_number := 170 |}.
Proof. vm_compute. reflexivity. Qed.

(* src/extended_capabilities/root_complex_link_declaration.rs:443, test [link_address_memory_mapped_space] *)
Example root_complex_link_declaration_link_address_memory_mapped_space_443 :
  M_ExtRcld.LinkAddress.new 0 (nth (N.to_nat 0) [4294963200; 857870592] 0) (nth (N.to_nat 1)
    [4294963200; 857870592] 0) =
  (M_ExtRcld.LinkAddress.MemoryMappedSpace 3684526141135122432).
Proof. vm_compute. reflexivity. Qed.

(* src/extended_capabilities/root_complex_link_declaration.rs:451, test [link_address_configuration_space] *)
Example root_complex_link_declaration_link_address_configuration_space_451 :
  M_ExtRcld.LinkAddress.new 1 (nth (N.to_nat 0) [4283781124; 857870592] 0) (nth (N.to_nat 1)
    [4283781124; 857870592] 0) =
  (M_ExtRcld.LinkAddress.ConfigurationSpace 4 0 5 10 5 3684526141118349312).
Proof. vm_compute. reflexivity. Qed.

(* src/extended_capabilities/root_complex_link_declaration.rs:467, test [link_address_into] *)
Example root_complex_link_declaration_link_address_into_467_1 :
  M_ExtRcld.LinkAddress.to_u32s (M_ExtRcld.LinkAddress.new 1 0 0) =
  [0; 0].
Proof. vm_compute. reflexivity. Qed.

(* src/extended_capabilities/root_complex_link_declaration.rs:467, test [link_address_into] *)
Example root_complex_link_declaration_link_address_into_467_2 :
  M_ExtRcld.LinkAddress.to_u32s (M_ExtRcld.LinkAddress.new 1 170 170) =
  [170; 170].
Proof. vm_compute. reflexivity. Qed.

(* src/extended_capabilities/root_complex_link_declaration.rs:467, test [link_address_into] *)
Example root_complex_link_declaration_link_address_into_467_3 :
  M_ExtRcld.LinkAddress.to_u32s (M_ExtRcld.LinkAddress.new 1 85 85) =
  [85; 85].
Proof. vm_compute. reflexivity. Qed.

(* src/extended_capabilities/root_complex_link_declaration.rs:467, test [link_address_into] *)
Example root_complex_link_declaration_link_address_into_467_4 :
  M_ExtRcld.LinkAddress.to_u32s (M_ExtRcld.LinkAddress.new 1 15 15) =
  [15; 15].
Proof. vm_compute. reflexivity. Qed.

(* src/extended_capabilities/root_complex_link_declaration.rs:467, test [link_address_into] *)
Example root_complex_link_declaration_link_address_into_467_5 :
  M_ExtRcld.LinkAddress.to_u32s (M_ExtRcld.LinkAddress.new 1 240 240) =
  [240; 240].
Proof. vm_compute. reflexivity. Qed.

(* src/extended_capabilities/root_complex_link_declaration.rs:467, test [link_address_into] *)
Example root_complex_link_declaration_link_address_into_467_6 :
  M_ExtRcld.LinkAddress.to_u32s (M_ExtRcld.LinkAddress.new 1 255 255) =
  [255; 255].
Proof. vm_compute. reflexivity. Qed.

(* src/extended_capabilities/root_complex_link_declaration.rs:484, test [link_entries] *)
Example root_complex_link_declaration_link_entries_484_1 :
  M_ExtRcld.LinkEntries.state (M_ExtRcld.LinkEntries.new [1; 0; 1; 0; 0; 0; 0; 0; 0; 144; 209;
    254; 0; 0; 0; 0] 1) =
  M_ExtRcld.LinkEntriesState.Valid.
Proof. vm_compute. reflexivity. Qed.

(* src/extended_capabilities/root_complex_link_declaration.rs:484, test [link_entries] *)
Example root_complex_link_declaration_link_entries_484_2 :
  first_items M_ExtRcld.LinkEntries.next 300 (M_ExtRcld.LinkEntries.new [1; 0; 1; 0; 0; 0; 0; 0;
    0; 144; 209; 254; 0; 0; 0; 0] 1) =
  [{| M_ExtRcld.LinkEntry.link_description := {| M_ExtRcld.LinkDescription.link_valid := true;
    M_ExtRcld.LinkDescription.link_type := 0; M_ExtRcld.LinkDescription.associate_rcrb_header :=
    false; M_ExtRcld.LinkDescription.target_component_id := 1;
    M_ExtRcld.LinkDescription.target_port_number := 0 |}; M_ExtRcld.LinkEntry.link_address :=
    (M_ExtRcld.LinkAddress.MemoryMappedSpace 4275146752) |}].
Proof. vm_compute. reflexivity. Qed.

(* src/extended_capabilities/root_complex_link_declaration.rs:512, test [parse_full_struct] *)
Example root_complex_link_declaration_parse_full_struct_512 :
  M_ExtRcld.RootComplexLinkDeclaration.try_from (drop 4 [5; 0; 1; 28; 0; 1; 1; 2; 0; 0; 0; 0; 0;
    0; 0; 0; 1; 0; 1; 0; 0; 0; 0; 0; 0; 144; 209; 254; 0; 0; 0; 0]) =
  Ok {| M_ExtRcld.RootComplexLinkDeclaration.element_self_description := {|
    M_ExtRcld.ElementSelfDescription.element_type :=
    M_ExtRcld.ElementType.ConfigurationSpaceElement; M_ExtRcld.ElementSelfDescription.reserved :=
    0; M_ExtRcld.ElementSelfDescription.number_of_link_entries := 1;
    M_ExtRcld.ElementSelfDescription.component_id := 1;
    M_ExtRcld.ElementSelfDescription.port_number := 2 |};
    M_ExtRcld.RootComplexLinkDeclaration.link_entries := (M_ExtRcld.LinkEntries.new (drop 16 [5;
    0; 1; 28; 0; 1; 1; 2; 0; 0; 0; 0; 0; 0; 0; 0; 1; 0; 1; 0; 0; 0; 0; 0; 0; 144; 209; 254; 0; 0;
    0; 0]) 1) |}.
Proof. vm_compute. reflexivity. Qed.

(* src/extended_capabilities/root_complex_register_block_header.rs:17, documentation example *)
Example root_complex_register_block_header_doc_17 :
  M_ExtSmall.RootComplexRegisterBlockHeader.try_from [10; 0; 1; 0; 134; 128; 52; 62; 1; 0; 0; 0;
    1; 0; 0; 0; 0; 0; 0; 0] =
  Ok {| M_ExtSmall.RootComplexRegisterBlockHeader.vendor_id := 32902;
    M_ExtSmall.RootComplexRegisterBlockHeader.device_id := 15924;
    M_ExtSmall.RootComplexRegisterBlockHeader.rcrb_capabilities := {|
    M_ExtSmall.RcrbCapabilities.crs_software_visibility := true |};
    M_ExtSmall.RootComplexRegisterBlockHeader.rcrb_control := {|
    M_ExtSmall.RcrbControl.crs_software_visibility_enable := true |} |}.
Proof. vm_compute. reflexivity. Qed.

(* src/extended_capabilities/secondary_pci_express.rs:24, documentation example *)
Example secondary_pci_express_doc_24 :
  map_ok (fun x => (M_ExtVec.SecondaryPciExpress.link_control_3 x,
    M_ExtVec.SecondaryPciExpress.lane_error_status x)) (M_ExtVec.SecondaryPciExpress.try_from
    (drop 4 [25; 0; 1; 40; 0; 0; 0; 0; 15; 0; 0; 0; 120; 39; 120; 39; 120; 39; 120; 39])) =
  Ok ({| M_ExtVec.LinkControl3.perform_equalization := false;
    M_ExtVec.LinkControl3.link_equalization_request_interrupt_enable := false;
    M_ExtVec.LinkControl3.lower_skp_os_generation_vector := {|
    M_Pcie.SupportedLinkSpeedsVector.speed_2_5_gtps := false;
    M_Pcie.SupportedLinkSpeedsVector.speed_5_0_gtps := false;
    M_Pcie.SupportedLinkSpeedsVector.speed_8_0_gtps := false;
    M_Pcie.SupportedLinkSpeedsVector.speed_16_0_gtps := false;
    M_Pcie.SupportedLinkSpeedsVector.speed_32_0_gtps := false;
    M_Pcie.SupportedLinkSpeedsVector.speed_64_0_gtps := false;
    M_Pcie.SupportedLinkSpeedsVector.reserved := false |} |}, (M_ExtVec.LaneErrorStatus.mk 15)).
Proof. vm_compute. reflexivity. Qed.

(* src/extended_capabilities/secondary_pci_express.rs:229, test [lane_error_status] *)
Example secondary_pci_express_lane_error_status_229 :
  M_ExtVec.SecondaryPciExpress.try_from (drop 4 [25; 0; 1; 40; 0; 0; 0; 0; 251; 12; 0; 0; 119;
    39; 119; 39; 119; 39; 119; 39; 119; 39; 119; 39; 119; 39; 119; 39; 119; 39; 119; 39; 119; 39;
    119; 39; 119; 39; 119; 39; 119; 39; 119; 39; 0; 0; 0; 0]) =
  Ok {| M_ExtVec.SecondaryPciExpress.ecl_data := (drop ((4 + 4) + 4) [25; 0; 1; 40; 0; 0; 0; 0;
    251; 12; 0; 0; 119; 39; 119; 39; 119; 39; 119; 39; 119; 39; 119; 39; 119; 39; 119; 39; 119;
    39; 119; 39; 119; 39; 119; 39; 119; 39; 119; 39; 119; 39; 119; 39; 0; 0; 0; 0]);
    M_ExtVec.SecondaryPciExpress.link_control_3 := {| M_ExtVec.LinkControl3.perform_equalization
    := false; M_ExtVec.LinkControl3.link_equalization_request_interrupt_enable := false;
    M_ExtVec.LinkControl3.lower_skp_os_generation_vector := {|
    M_Pcie.SupportedLinkSpeedsVector.speed_2_5_gtps := false;
    M_Pcie.SupportedLinkSpeedsVector.speed_5_0_gtps := false;
    M_Pcie.SupportedLinkSpeedsVector.speed_8_0_gtps := false;
    M_Pcie.SupportedLinkSpeedsVector.speed_16_0_gtps := false;
    M_Pcie.SupportedLinkSpeedsVector.speed_32_0_gtps := false;
    M_Pcie.SupportedLinkSpeedsVector.speed_64_0_gtps := false;
    M_Pcie.SupportedLinkSpeedsVector.reserved := false |} |};
    M_ExtVec.SecondaryPciExpress.lane_error_status := (M_ExtVec.LaneErrorStatus.mk 3323) |}.
Proof. vm_compute. reflexivity. Qed.

(* src/extended_capabilities/secondary_pci_express.rs:252, test [equalization_control_lanes] *)
Example secondary_pci_express_equalization_control_lanes_252 :
  match M_ExtVec.SecondaryPciExpress.try_from (drop 4 [25; 0; 1; 40; 0; 0; 0; 0; 251; 12; 0; 0;
    119; 39; 119; 39; 119; 39; 119; 39; 119; 39; 119; 39; 119; 39; 119; 39; 119; 39; 119; 39;
    119; 39; 119; 39; 119; 39; 119; 39; 119; 39; 119; 39; 0; 0; 0; 0]) with
  | Ok spe =>
      match M_ExtVec.SecondaryPciExpress.equalization_control_lanes (E := unit) spe
        M_Pcie.LinkWidth.X8 with
      | Ok it => first_items M_ExtVec.EqualizationControlLanes.next 300 it | _ => [] end
  | _ => [] end =
  repeat {| M_ExtVec.LaneEqualizationControl.downstream_port_transmitter_preset :=
    M_Pcie.TransmitterPreset.P7;
    M_ExtVec.LaneEqualizationControl.downstream_port_receiver_preset_hint :=
    M_Pcie.ReceiverPresetHint.Reserved;
    M_ExtVec.LaneEqualizationControl.upstream_port_transmitter_preset :=
    M_Pcie.TransmitterPreset.P7;
    M_ExtVec.LaneEqualizationControl.upstream_port_receiver_preset_hint :=
    M_Pcie.ReceiverPresetHint.Minus8dB |} 8%nat.
Proof. vm_compute. reflexivity. Qed.

(* src/extended_capabilities/single_root_io_virtualization.rs:226, test [parse_full_struct] *)
Example single_root_io_virtualization_parse_full_struct_226 :
  Ok (M_ExtSmall.SingleRootIoVirtualization.from [2; 0; 0; 0; 0; 0; 0; 0; 8; 0; 8; 0; 0; 0; 0; 0;
    128; 1; 4; 0; 0; 0; 32; 21; 83; 5; 0; 0; 1; 0; 0; 0; 12; 0; 24; 160; 0; 0; 0; 0; 0; 0; 0; 0;
    12; 0; 26; 160; 0; 0; 0; 0; 0; 0; 0; 0; 0; 0; 0; 0]) =
  (ds <- M_Header.BaseAddresses.from_iter (E := unit) 6%nat [{| M_Header.BaseAddress.region := 0;
    M_Header.BaseAddress.base_address_type := (M_Header.BaseAddressType.MemorySpace64 true
    2685927424) |}; {| M_Header.BaseAddress.region := 3; M_Header.BaseAddress.base_address_type
    := (M_Header.BaseAddressType.MemorySpace64 true 2686058496) |}] ;; Ok {|
    M_ExtSmall.SingleRootIoVirtualization.sriov_capabilities := {|
    M_ExtSmall.SriovCapabilities.vf_migration_capable := false;
    M_ExtSmall.SriovCapabilities.ari_capable_hierarchy_preserved := true;
    M_ExtSmall.SriovCapabilities.vf_10bit_tag_requester_supported := false;
    M_ExtSmall.SriovCapabilities.vf_migration_interrupt_message_number := 0 |};
    M_ExtSmall.SingleRootIoVirtualization.sriov_control := {| M_ExtSmall.SriovControl.vf_enable
    := false; M_ExtSmall.SriovControl.vf_migration_enable := false;
    M_ExtSmall.SriovControl.vf_migration_interrupt_enable := false;
    M_ExtSmall.SriovControl.vf_mse := false; M_ExtSmall.SriovControl.ari_capable_hierarchy :=
    false; M_ExtSmall.SriovControl.vf_10bit_tag_requester_enable := false |};
    M_ExtSmall.SingleRootIoVirtualization.sriov_status := {|
    M_ExtSmall.SriovStatus.vf_migration_status := false |};
    M_ExtSmall.SingleRootIoVirtualization.initial_vfs := 8;
    M_ExtSmall.SingleRootIoVirtualization.total_vfs := 8;
    M_ExtSmall.SingleRootIoVirtualization.num_vfs := 0;
    M_ExtSmall.SingleRootIoVirtualization.function_dependency_link := 0;
    M_ExtSmall.SingleRootIoVirtualization.first_vf_offset := 384;
    M_ExtSmall.SingleRootIoVirtualization.vf_stride := 4;
    M_ExtSmall.SingleRootIoVirtualization.vf_device_id := 5408;
    M_ExtSmall.SingleRootIoVirtualization.page_sizes := {| M_ExtSmall.PageSizes.supported :=
    1363; M_ExtSmall.PageSizes.system := 1 |};
    M_ExtSmall.SingleRootIoVirtualization.base_addresses := M_Header.BaseAddresses.new ds;
    M_ExtSmall.SingleRootIoVirtualization.vf_migration_state_array_offset := 0 |}).
Proof. vm_compute. reflexivity. Qed.

(* src/extended_capabilities/tph_requester.rs:17, documentation example *)
Example tph_requester_doc_17 :
  M_ExtMid.TphRequester.try_from (drop 4 [23; 0; 1; 28; 5; 2; 7; 0; 0; 0; 0; 0; 0; 0; 0; 0; 0; 0;
    0; 0; 0; 0; 0; 0; 0; 0; 0; 0]) =
  Ok {| M_ExtMid.TphRequester.tph_requester_capability := {|
    M_ExtMid.TphRequesterCapability.no_st_mode_supported := true;
    M_ExtMid.TphRequesterCapability.interrupt_vector_mode_supported := false;
    M_ExtMid.TphRequesterCapability.device_specific_mode_supported := true;
    M_ExtMid.TphRequesterCapability.extended_tph_requester_supported := false;
    M_ExtMid.TphRequesterCapability.st_table := (M_ExtMid.StTable.Valid 7 (repeat 0 16%nat)) |};
    M_ExtMid.TphRequester.tph_requester_control := {| M_ExtMid.TphRequesterControl.st_mode_select
    := M_ExtMid.StModeSelect.NoStMode; M_ExtMid.TphRequesterControl.tph_requester_enable :=
    M_ExtMid.TphRequesterEnable.NotPermitted |} |}.
Proof. vm_compute. reflexivity. Qed.

(* src/extended_capabilities/vendor_specific_extended_capability.rs:18, documentation example *)
Example vendor_specific_extended_capability_doc_18 :
  M_ExtSmall.VendorSpecificExtendedCapability.try_from (drop 4 [11; 0; 65; 20; 2; 0; 192; 0; 7;
    48; 0; 0]) =
  Ok {| M_ExtSmall.VendorSpecificExtendedCapability.header := {| M_ExtSmall.VsecHeader.vsec_id :=
    2; M_ExtSmall.VsecHeader.vsec_rev := 0; M_ExtSmall.VsecHeader.vsec_length := 12 |};
    M_ExtSmall.VendorSpecificExtendedCapability.registers := (M_ExtSmall.VsecRegisters.Valid [7;
    48; 0; 0]) |}.
Proof. vm_compute. reflexivity. Qed.

(* src/extended_capabilities/virtual_channel.rs:33, documentation example *)
Example virtual_channel_doc_33 :
  M_ExtVc.VirtualChannel.try_from (drop 4 [2; 0; 1; 0; 0; 0; 0; 0; 0; 0; 0; 0; 0; 0; 0; 0; 0; 0;
    0; 0; 255; 0; 0; 128; 0; 0; 0; 0]) =
  map_ok (fun vc => {| M_ExtVc.VirtualChannel.data := M_ExtVc.VirtualChannel.data vc;
    M_ExtVc.VirtualChannel.port_vc_capability_1 := {| M_ExtVc.PortVcCapability1.extended_vc_count
    := 0; M_ExtVc.PortVcCapability1.low_priority_extended_vc_count := 0;
    M_ExtVc.PortVcCapability1.reference_clock := M_ExtVc.ReferenceClock.Rc100ns;
    M_ExtVc.PortVcCapability1.port_arbitration_table_entry_size :=
    (M_ExtVc.PortArbitrationTableEntrySize.from 0) |};
    M_ExtVc.VirtualChannel.port_vc_capability_2 := {|
    M_ExtVc.PortVcCapability2.vc_arbitration_capability := {|
    M_ExtVc.VcArbitrationCapability.hardware_fixed_arbitration := false;
    M_ExtVc.VcArbitrationCapability.wrr_32_phases := false;
    M_ExtVc.VcArbitrationCapability.wrr_64_phases := false;
    M_ExtVc.VcArbitrationCapability.wrr_128_phases := false;
    M_ExtVc.VcArbitrationCapability.reserved := 0 |};
    M_ExtVc.PortVcCapability2.vc_arbitration_table_offset := 0 |};
    M_ExtVc.VirtualChannel.port_vc_control := {| M_ExtVc.PortVcControl.load_vc_arbitration_table
    := false; M_ExtVc.PortVcControl.vc_arbitration_select :=
    M_ExtVc.VcArbitrationSelect.HardwareFixedArbitration |};
    M_ExtVc.VirtualChannel.port_vc_status := {| M_ExtVc.PortVcStatus.vc_arbitration_table_status
    := false |} |}) (M_ExtVc.VirtualChannel.try_from [0; 0; 0; 0; 0; 0; 0; 0; 0; 0; 0; 0; 0; 0;
    0; 0; 255; 0; 0; 128; 0; 0; 0; 0]).
Proof. vm_compute. reflexivity. Qed.

(* src/extended_capabilities/virtual_channel.rs:742, test [port_vc_capability_1] *)
Example virtual_channel_port_vc_capability_1_742 :
  M_ExtVc.PortVcCapability1.from 2730 =
  {| M_ExtVc.PortVcCapability1.extended_vc_count := 2;
    M_ExtVc.PortVcCapability1.low_priority_extended_vc_count := 2;
    M_ExtVc.PortVcCapability1.reference_clock := (M_ExtVc.ReferenceClock.Reserved 2);
    M_ExtVc.PortVcCapability1.port_arbitration_table_entry_size :=
    (M_ExtVc.PortArbitrationTableEntrySize.mk 2) |}.
Proof. vm_compute. reflexivity. Qed.

(* src/extended_capabilities/virtual_channel.rs:755, test [port_vc_capability_2] *)
Example virtual_channel_port_vc_capability_2_755 :
  M_ExtVc.PortVcCapability2.from 251658410 =
  {| M_ExtVc.PortVcCapability2.vc_arbitration_capability := {|
    M_ExtVc.VcArbitrationCapability.hardware_fixed_arbitration := false;
    M_ExtVc.VcArbitrationCapability.wrr_32_phases := true;
    M_ExtVc.VcArbitrationCapability.wrr_64_phases := false;
    M_ExtVc.VcArbitrationCapability.wrr_128_phases := true;
    M_ExtVc.VcArbitrationCapability.reserved := 10 |};
    M_ExtVc.PortVcCapability2.vc_arbitration_table_offset := 15 |}.
Proof. vm_compute. reflexivity. Qed.

(* src/extended_capabilities/virtual_channel.rs:772, test [port_vc_control] *)
Example virtual_channel_port_vc_control_772 :
  M_ExtVc.PortVcControl.from 5 =
  {| M_ExtVc.PortVcControl.load_vc_arbitration_table := true;
    M_ExtVc.PortVcControl.vc_arbitration_select := M_ExtVc.VcArbitrationSelect.Wrr64phases |}.
Proof. vm_compute. reflexivity. Qed.

(* src/extended_capabilities/virtual_channel.rs:783, test [port_vc_status] *)
Example virtual_channel_port_vc_status_783 :
  M_ExtVc.PortVcStatus.from 1 =
  {| M_ExtVc.PortVcStatus.vc_arbitration_table_status := true |}.
Proof. vm_compute. reflexivity. Qed.

(* src/extended_capabilities/virtual_channel.rs:793, test [vc_resource_capability] *)
Example virtual_channel_vc_resource_capability_793 :
  M_ExtVc.VcResourceCapability.from 2857746602 =
  {| M_ExtVc.VcResourceCapability.port_arbitration_capability := {|
    M_ExtVc.PortArbitrationCapability.hardware_fixed_arbitration := false;
    M_ExtVc.PortArbitrationCapability.wrr_32_phases := true;
    M_ExtVc.PortArbitrationCapability.wrr_64_phases := false;
    M_ExtVc.PortArbitrationCapability.wrr_128_phases := true;
    M_ExtVc.PortArbitrationCapability.time_based_wrr_128_phases := false;
    M_ExtVc.PortArbitrationCapability.wrr_256_phases := true;
    M_ExtVc.PortArbitrationCapability.reserved := 2 |};
    M_ExtVc.VcResourceCapability.advanced_packet_switching := true;
    M_ExtVc.VcResourceCapability.reject_snoop_transactions := true;
    M_ExtVc.VcResourceCapability.maximum_time_slots := 85;
    M_ExtVc.VcResourceCapability.port_arbitration_table_offset := 170 |}.
Proof. vm_compute. reflexivity. Qed.

(* src/extended_capabilities/virtual_channel.rs:815, test [vc_resource_control] *)
Example virtual_channel_vc_resource_control_815 :
  M_ExtVc.VcResourceControl.from 2232090794 =
  {| M_ExtVc.VcResourceControl.tc_or_vc_map := 170;
    M_ExtVc.VcResourceControl.load_port_arbitration_table := true;
    M_ExtVc.VcResourceControl.port_arbitration_select :=
    M_ExtVc.PortArbitrationSelect.Wrr256phases; M_ExtVc.VcResourceControl.vc_id := 5;
    M_ExtVc.VcResourceControl.vc_enable := true |}.
Proof. vm_compute. reflexivity. Qed.

(* src/extended_capabilities/virtual_channel.rs:829, test [vc_resource_status] *)
Example virtual_channel_vc_resource_status_829 :
  M_ExtVc.VcResourceStatus.from 3 =
  {| M_ExtVc.VcResourceStatus.port_arbitration_table_status := true;
    M_ExtVc.VcResourceStatus.vc_negotiation_pending := true |}.
Proof. vm_compute. reflexivity. Qed.

(* src/extended_capabilities/virtual_channel.rs:840, test [vc_arbitration_table] *)
Example virtual_channel_vc_arbitration_table_840 :
  first_items (M_ExtVc.VcArbitrationTable.next) 300 (M_ExtVc.VcArbitrationTable.new [16; 35]) =
  [{| M_ExtVc.VcArbitrationTableEntry.vc_id := 0 |}; {| M_ExtVc.VcArbitrationTableEntry.vc_id :=
    1 |}; {| M_ExtVc.VcArbitrationTableEntry.vc_id := 3 |}; {|
    M_ExtVc.VcArbitrationTableEntry.vc_id := 2 |}].
Proof. vm_compute. reflexivity. Qed.

(* src/extended_capabilities/virtual_channel.rs:853, test [port_arbitration_table_entry_size] *)
Example virtual_channel_port_arbitration_table_entry_size_853_1 :
  first_items (M_ExtVc.PortArbitrationTable.next (E := unit)) 300
    (M_ExtVc.PortArbitrationTable.new (take 4 [1; 35; 69; 103; 137; 171; 205; 239; 1; 35; 69;
    103; 137; 171; 205; 239; 1; 35; 69; 103; 137; 171; 205; 239; 1; 35; 69; 103; 137; 171; 205;
    239]) 1) =
  map (fun v => Ok (M_ExtVc.PortArbitrationTableEntry.mk v)) [1; 0; 0; 0; 0; 0; 0; 0; 1; 1; 0; 0;
    0; 1; 0; 0; 1; 0; 1; 0; 0; 0; 1; 0; 1; 1; 1; 0; 0; 1; 1; 0].
Proof. vm_compute. reflexivity. Qed.

(* src/extended_capabilities/virtual_channel.rs:853, test [port_arbitration_table_entry_size] *)
Example virtual_channel_port_arbitration_table_entry_size_853_2 :
  first_items (M_ExtVc.PortArbitrationTable.next (E := unit)) 300
    (M_ExtVc.PortArbitrationTable.new (take 8 [1; 35; 69; 103; 137; 171; 205; 239; 1; 35; 69;
    103; 137; 171; 205; 239; 1; 35; 69; 103; 137; 171; 205; 239; 1; 35; 69; 103; 137; 171; 205;
    239]) 2) =
  map (fun v => Ok (M_ExtVc.PortArbitrationTableEntry.mk v)) [1; 0; 0; 0; 3; 0; 2; 0; 1; 1; 0; 1;
    3; 1; 2; 1; 1; 2; 0; 2; 3; 2; 2; 2; 1; 3; 0; 3; 3; 3; 2; 3].
Proof. vm_compute. reflexivity. Qed.

(* src/extended_capabilities/virtual_channel.rs:853, test [port_arbitration_table_entry_size] *)
Example virtual_channel_port_arbitration_table_entry_size_853_3 :
  first_items (M_ExtVc.PortArbitrationTable.next (E := unit)) 300
    (M_ExtVc.PortArbitrationTable.new (take 16 [1; 35; 69; 103; 137; 171; 205; 239; 1; 35; 69;
    103; 137; 171; 205; 239; 1; 35; 69; 103; 137; 171; 205; 239; 1; 35; 69; 103; 137; 171; 205;
    239]) 4) =
  map (fun v => Ok (M_ExtVc.PortArbitrationTableEntry.mk v)) [1; 0; 3; 2; 5; 4; 7; 6; 9; 8; 11;
    10; 13; 12; 15; 14; 1; 0; 3; 2; 5; 4; 7; 6; 9; 8; 11; 10; 13; 12; 15; 14].
Proof. vm_compute. reflexivity. Qed.

(* src/extended_capabilities/virtual_channel.rs:853, test [port_arbitration_table_entry_size] *)
Example virtual_channel_port_arbitration_table_entry_size_853_4 :
  first_items (M_ExtVc.PortArbitrationTable.next (E := unit)) 300
    (M_ExtVc.PortArbitrationTable.new [1; 35; 69; 103; 137; 171; 205; 239; 1; 35; 69; 103; 137;
    171; 205; 239; 1; 35; 69; 103; 137; 171; 205; 239; 1; 35; 69; 103; 137; 171; 205; 239] 8) =
  map (fun v => Ok (M_ExtVc.PortArbitrationTableEntry.mk v)) [1; 35; 69; 103; 137; 171; 205; 239;
    1; 35; 69; 103; 137; 171; 205; 239; 1; 35; 69; 103; 137; 171; 205; 239; 1; 35; 69; 103; 137;
    171; 205; 239].
Proof. vm_compute. reflexivity. Qed.

(* src/extended_capabilities/virtual_channel.rs:1011, test [extended_virtual_channels] *)
Example virtual_channel_extended_virtual_channels_1011 :
  match M_ExtVc.ExtendedVirtualChannels.new (E := unit) [0; 0; 0; 0; 255; 0; 0; 128; 0; 0; 0; 0;
    3; 0; 0; 2; 255; 0; 0; 128; 0; 0; 0; 0] 2 with
  | Ok it => first_items (M_ExtVc.ExtendedVirtualChannels.next) 300 it | _ => [] end =
  [(Ok {| M_ExtVc.ExtendedVirtualChannel.vc_resource_capability := {|
    M_ExtVc.VcResourceCapability.port_arbitration_capability := {|
    M_ExtVc.PortArbitrationCapability.hardware_fixed_arbitration := false;
    M_ExtVc.PortArbitrationCapability.wrr_32_phases := false;
    M_ExtVc.PortArbitrationCapability.wrr_64_phases := false;
    M_ExtVc.PortArbitrationCapability.wrr_128_phases := false;
    M_ExtVc.PortArbitrationCapability.time_based_wrr_128_phases := false;
    M_ExtVc.PortArbitrationCapability.wrr_256_phases := false;
    M_ExtVc.PortArbitrationCapability.reserved := 0 |};
    M_ExtVc.VcResourceCapability.advanced_packet_switching := false;
    M_ExtVc.VcResourceCapability.reject_snoop_transactions := false;
    M_ExtVc.VcResourceCapability.maximum_time_slots := (1 - 1);
    M_ExtVc.VcResourceCapability.port_arbitration_table_offset := 0 |};
    M_ExtVc.ExtendedVirtualChannel.vc_resource_control := {|
    M_ExtVc.VcResourceControl.tc_or_vc_map := 255;
    M_ExtVc.VcResourceControl.load_port_arbitration_table := false;
    M_ExtVc.VcResourceControl.port_arbitration_select :=
    M_ExtVc.PortArbitrationSelect.HardwareFixedArbitration; M_ExtVc.VcResourceControl.vc_id := 0;
    M_ExtVc.VcResourceControl.vc_enable := true |};
    M_ExtVc.ExtendedVirtualChannel.vc_resource_status := {|
    M_ExtVc.VcResourceStatus.port_arbitration_table_status := false;
    M_ExtVc.VcResourceStatus.vc_negotiation_pending := false |} |}); (Ok {|
    M_ExtVc.ExtendedVirtualChannel.vc_resource_capability := {|
    M_ExtVc.VcResourceCapability.port_arbitration_capability := {|
    M_ExtVc.PortArbitrationCapability.hardware_fixed_arbitration := true;
    M_ExtVc.PortArbitrationCapability.wrr_32_phases := true;
    M_ExtVc.PortArbitrationCapability.wrr_64_phases := false;
    M_ExtVc.PortArbitrationCapability.wrr_128_phases := false;
    M_ExtVc.PortArbitrationCapability.time_based_wrr_128_phases := false;
    M_ExtVc.PortArbitrationCapability.wrr_256_phases := false;
    M_ExtVc.PortArbitrationCapability.reserved := 0 |};
    M_ExtVc.VcResourceCapability.advanced_packet_switching := false;
    M_ExtVc.VcResourceCapability.reject_snoop_transactions := false;
    M_ExtVc.VcResourceCapability.maximum_time_slots := (1 - 1);
    M_ExtVc.VcResourceCapability.port_arbitration_table_offset := 2 |};
    M_ExtVc.ExtendedVirtualChannel.vc_resource_control := {|
    M_ExtVc.VcResourceControl.tc_or_vc_map := 255;
    M_ExtVc.VcResourceControl.load_port_arbitration_table := false;
    M_ExtVc.VcResourceControl.port_arbitration_select :=
    M_ExtVc.PortArbitrationSelect.HardwareFixedArbitration; M_ExtVc.VcResourceControl.vc_id := 0;
    M_ExtVc.VcResourceControl.vc_enable := true |};
    M_ExtVc.ExtendedVirtualChannel.vc_resource_status := {|
    M_ExtVc.VcResourceStatus.port_arbitration_table_status := false;
    M_ExtVc.VcResourceStatus.vc_negotiation_pending := false |} |})].
Proof. vm_compute. reflexivity. Qed.
