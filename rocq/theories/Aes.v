(** AES-128 (FIPS-197), the block cipher of the [aes] 0.7 crate used through
    [Aes128Cbc] in /repo/src/lib.rs L14-21. Bytes are [N] below 256, a state is the
    list of its 16 bytes in input order (column major). The crate itself is external:
    this is its specification, checked below against the FIPS-197 test vector. *)
From Verif Require Import Base.

Definition byte_ok (b : N) : bool := b <? 256.
Definition bytes_ok (l : list N) : bool := forallb byte_ok l.

Definition sbox_table : list N :=
  [ 99; 124; 119; 123; 242; 107; 111; 197; 48; 1; 103; 43; 254; 215; 171; 118;
    202; 130; 201; 125; 250; 89; 71; 240; 173; 212; 162; 175; 156; 164; 114; 192;
    183; 253; 147; 38; 54; 63; 247; 204; 52; 165; 229; 241; 113; 216; 49; 21;
    4; 199; 35; 195; 24; 150; 5; 154; 7; 18; 128; 226; 235; 39; 178; 117;
    9; 131; 44; 26; 27; 110; 90; 160; 82; 59; 214; 179; 41; 227; 47; 132;
    83; 209; 0; 237; 32; 252; 177; 91; 106; 203; 190; 57; 74; 76; 88; 207;
    208; 239; 170; 251; 67; 77; 51; 133; 69; 249; 2; 127; 80; 60; 159; 168;
    81; 163; 64; 143; 146; 157; 56; 245; 188; 182; 218; 33; 16; 255; 243; 210;
    205; 12; 19; 236; 95; 151; 68; 23; 196; 167; 126; 61; 100; 93; 25; 115;
    96; 129; 79; 220; 34; 42; 144; 136; 70; 238; 184; 20; 222; 94; 11; 219;
    224; 50; 58; 10; 73; 6; 36; 92; 194; 211; 172; 98; 145; 149; 228; 121;
    231; 200; 55; 109; 141; 213; 78; 169; 108; 86; 244; 234; 101; 122; 174; 8;
    186; 120; 37; 46; 28; 166; 180; 198; 232; 221; 116; 31; 75; 189; 139; 138;
    112; 62; 181; 102; 72; 3; 246; 14; 97; 53; 87; 185; 134; 193; 29; 158;
    225; 248; 152; 17; 105; 217; 142; 148; 155; 30; 135; 233; 206; 85; 40; 223;
    140; 161; 137; 13; 191; 230; 66; 104; 65; 153; 45; 15; 176; 84; 187; 22 ].
Definition inv_sbox_table : list N :=
  [ 82; 9; 106; 213; 48; 54; 165; 56; 191; 64; 163; 158; 129; 243; 215; 251;
    124; 227; 57; 130; 155; 47; 255; 135; 52; 142; 67; 68; 196; 222; 233; 203;
    84; 123; 148; 50; 166; 194; 35; 61; 238; 76; 149; 11; 66; 250; 195; 78;
    8; 46; 161; 102; 40; 217; 36; 178; 118; 91; 162; 73; 109; 139; 209; 37;
    114; 248; 246; 100; 134; 104; 152; 22; 212; 164; 92; 204; 93; 101; 182; 146;
    108; 112; 72; 80; 253; 237; 185; 218; 94; 21; 70; 87; 167; 141; 157; 132;
    144; 216; 171; 0; 140; 188; 211; 10; 247; 228; 88; 5; 184; 179; 69; 6;
    208; 44; 30; 143; 202; 63; 15; 2; 193; 175; 189; 3; 1; 19; 138; 107;
    58; 145; 17; 65; 79; 103; 220; 234; 151; 242; 207; 206; 240; 180; 230; 115;
    150; 172; 116; 34; 231; 173; 53; 133; 226; 249; 55; 232; 28; 117; 223; 110;
    71; 241; 26; 113; 29; 41; 197; 137; 111; 183; 98; 14; 170; 24; 190; 27;
    252; 86; 62; 75; 198; 210; 121; 32; 154; 219; 192; 254; 120; 205; 90; 244;
    31; 221; 168; 51; 136; 7; 199; 49; 177; 18; 16; 89; 39; 128; 236; 95;
    96; 81; 127; 169; 25; 181; 74; 13; 45; 229; 122; 159; 147; 201; 156; 239;
    160; 224; 59; 77; 174; 42; 245; 176; 200; 235; 187; 60; 131; 83; 153; 97;
    23; 43; 4; 126; 186; 119; 214; 38; 225; 105; 20; 99; 85; 33; 12; 125 ].
Definition sbox (b : N) : N := nth (N.to_nat b) sbox_table 0.
Definition inv_sbox (b : N) : N := nth (N.to_nat b) inv_sbox_table 0.

(** multiplication by x in GF(2^8) modulo x^8+x^4+x^3+x+1 *)
Definition xtime (b : N) : N :=
  if b <? 128 then 2 * b else N.lxor (2 * b) 0x11b.
Definition m2 := xtime.
Definition m3 b := N.lxor (xtime b) b.
Definition m9 b := N.lxor (xtime (xtime (xtime b))) b.
Definition m11 b := N.lxor (N.lxor (xtime (xtime (xtime b))) (xtime b)) b.
Definition m13 b := N.lxor (N.lxor (xtime (xtime (xtime b))) (xtime (xtime b))) b.
Definition m14 b := N.lxor (N.lxor (xtime (xtime (xtime b))) (xtime (xtime b))) (xtime b).

Fixpoint xor_list (a b : list N) : list N :=
  match a, b with
  | x :: a', y :: b' => N.lxor x y :: xor_list a' b'
  | _, _ => []
  end.

(** FIPS-197 5.1.2 / 5.3.1 *)
Definition shift_rows (s : list N) : list N :=
  match s with
  | [b0;b1;b2;b3;b4;b5;b6;b7;b8;b9;b10;b11;b12;b13;b14;b15] =>
    [b0;b5;b10;b15;b4;b9;b14;b3;b8;b13;b2;b7;b12;b1;b6;b11]
  | _ => s
  end.
Definition inv_shift_rows (s : list N) : list N :=
  match s with
  | [b0;b1;b2;b3;b4;b5;b6;b7;b8;b9;b10;b11;b12;b13;b14;b15] =>
    [b0;b13;b10;b7;b4;b1;b14;b11;b8;b5;b2;b15;b12;b9;b6;b3]
  | _ => s
  end.
(** FIPS-197 5.1.3 / 5.3.3, one column *)
Definition mix_col (a b c d : N) : list N :=
  [ N.lxor (N.lxor (N.lxor (m2 a) (m3 b)) c) d;
    N.lxor (N.lxor (N.lxor a (m2 b)) (m3 c)) d;
    N.lxor (N.lxor (N.lxor a b) (m2 c)) (m3 d);
    N.lxor (N.lxor (N.lxor (m3 a) b) c) (m2 d) ].
Definition inv_mix_col (a b c d : N) : list N :=
  [ N.lxor (N.lxor (N.lxor (m14 a) (m11 b)) (m13 c)) (m9 d);
    N.lxor (N.lxor (N.lxor (m9 a) (m14 b)) (m11 c)) (m13 d);
    N.lxor (N.lxor (N.lxor (m13 a) (m9 b)) (m14 c)) (m11 d);
    N.lxor (N.lxor (N.lxor (m11 a) (m13 b)) (m9 c)) (m14 d) ].
Fixpoint mix_columns (s : list N) : list N :=
  match s with
  | a :: b :: c :: d :: r => mix_col a b c d ++ mix_columns r
  | _ => []
  end.
Fixpoint inv_mix_columns (s : list N) : list N :=
  match s with
  | a :: b :: c :: d :: r => inv_mix_col a b c d ++ inv_mix_columns r
  | _ => []
  end.

(** Key expansion (FIPS-197 5.2): list of 16-byte round keys. *)
Definition next_round_key (k : list N) (rcon : N) : list N :=
  match k with
  | [k0;k1;k2;k3;k4;k5;k6;k7;k8;k9;k10;k11;k12;k13;k14;k15] =>
    let w0 := xor_list [k0;k1;k2;k3]
                [N.lxor (sbox k13) rcon; sbox k14; sbox k15; sbox k12] in
    let w1 := xor_list [k4;k5;k6;k7] w0 in
    let w2 := xor_list [k8;k9;k10;k11] w1 in
    let w3 := xor_list [k12;k13;k14;k15] w2 in
    w0 ++ w1 ++ w2 ++ w3
  | _ => k
  end.
Fixpoint expand (k : list N) (rcons : list N) : list (list N) :=
  match rcons with
  | [] => []
  | r :: rs => let k' := next_round_key k r in k' :: expand k' rs
  end.
Definition mid_keys (k : list N) : list (list N) := expand k [1;2;4;8;16;32;64;128;27].
Definition last_key (k : list N) : list N :=
  last (expand k [1;2;4;8;16;32;64;128;27;54]) k.

Definition enc_round (s k : list N) : list N :=
  xor_list (mix_columns (shift_rows (map sbox s))) k.
Definition dec_round (k s : list N) : list N :=
  map inv_sbox (inv_shift_rows (inv_mix_columns (xor_list s k))).
(** FIPS-197 5.1 (Cipher) and 5.3 (InvCipher) for a 128-bit key [k]. *)
Definition aes_encrypt_block (k s : list N) : list N :=
  let s1 := fold_left enc_round (mid_keys k) (xor_list s k) in
  xor_list (shift_rows (map sbox s1)) (last_key k).
Definition aes_decrypt_block (k s : list N) : list N :=
  let s1 := map inv_sbox (inv_shift_rows (xor_list s (last_key k))) in
  xor_list (fold_right dec_round s1 (mid_keys k)) k.

(** FIPS-197 appendix B test vector. *)
Example aes_fips_197_appendix_B :
  aes_encrypt_block
    [0x2b;0x7e;0x15;0x16;0x28;0xae;0xd2;0xa6;0xab;0xf7;0x15;0x88;0x09;0xcf;0x4f;0x3c]
    [0x32;0x43;0xf6;0xa8;0x88;0x5a;0x30;0x8d;0x31;0x31;0x98;0xa2;0xe0;0x37;0x07;0x34]
  = [0x39;0x25;0x84;0x1d;0x02;0xdc;0x09;0xfb;0xdc;0x11;0x85;0x97;0x19;0x6a;0x0b;0x32].
Proof. vm_compute. reflexivity. Qed.

