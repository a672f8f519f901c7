(** Properties C06-C08, C56 (colours) and C10 (activity options). *)
From Verif Require Import Base Spec Dec Json JsonProofs M_Color ColorProofs M_File FileProofs.

(** C06 *)
Theorem C06_components a r g b : a < 256 -> r < 256 -> g < 256 -> b < 256 ->
  let c := from_argb a r g b in
  alpha c = a /\ red c = r /\ green c = g /\ blue c = b /\
  cval c = a * 2 ^ 24 + r * 2 ^ 16 + g * 2 ^ 8 + b /\
  from_rgb r g b = from_argb 255 r g b.
Proof.
  intros Ha Hr Hg Hb. cbv zeta. destruct (argb_components a r g b Ha Hr Hg Hb) as (A & B & C & D).
  repeat split; auto. now rewrite argb_value.
Qed.
Print Assumptions C06_components.
Theorem C06_own_components c : cval c < 2 ^ 32 ->
  from_argb (alpha c) (red c) (green c) (blue c) = c /\
  alpha c < 256 /\ red c < 256 /\ green c < 256 /\ blue c < 256.
Proof.
  intros H. split; [now apply argb_own|].
  assert (K : forall n, as_u8 n < 256).
  { intros n. unfold as_u8. change 0xff with (N.ones 8). rewrite N.land_ones. apply N.mod_lt. discriminate. }
  unfold alpha, red, green, blue. auto.
Qed.
Print Assumptions C06_own_components.
Example C06_example : cval (from_argb 1 2 3 254) = 0x010203FE /\ rgb (from_argb 1 2 3 254) = (2, 3, 254) /\
  cval (from_rgb 18 52 86) = 0xFF123456.
Proof. vm_compute. auto. Qed.

(** C07 *)
Theorem C07_roundtrip c : cval c < 2 ^ 32 ->
  exists z, (-2 ^ 31 <= z < 2 ^ 31)%Z /\ print_json (e_color c) = dec_of_Z z /\
    (z mod 2 ^ 32 = Z.of_N (cval c))%Z /\
    (let? j := parse_json (print_json (e_color c)) in d_color j) = Some c.
Proof.
  intros H. exists (i32_of_u32 (cval c)). pose proof (i32_range _ H) as R. repeat split; try lia.
  - unfold e_color. destruct (i32_of_u32 (cval c)); cbn [e_int e_nat print_json print_num jneg jint jfrac jexp dec_of_Z app];
      rewrite ?app_nil_r; reflexivity.
  - unfold i32_of_u32. destruct (N.ltb_spec (cval c) 2147483648).
    + rewrite Z.mod_small; lia.
    + change 4294967296%Z with (1 * 2 ^ 32)%Z. symmetry. apply (Z.mod_unique _ _ (-1)); lia.
  - rewrite parse_print by (apply wf_e_int). cbn [obind]. now apply d_color_e.
Qed.
Print Assumptions C07_roundtrip.
(** every JSON integer that fits i64 or u64 *)
Theorem C07_saturate z : (-2 ^ 63 <= z < 2 ^ 64)%Z ->
  exists c, (let? j := parse_json (dec_of_Z z) in d_color j) = Some c /\ cval c < 2 ^ 32 /\
    let w := (if z <? 2 ^ 63 then z else z - 2 ^ 64)%Z in
    Z.of_N (cval c) = (Z.min (Z.max w (-2 ^ 31)) (2 ^ 31 - 1) mod 2 ^ 32)%Z.
Proof.
  intros H.
  assert (E : dec_of_Z z = print_json (e_int z)).
  { destruct z; cbn [e_int e_nat print_json print_num jneg jint jfrac jexp dec_of_Z app]; rewrite ?app_nil_r; reflexivity. }
  rewrite E, parse_print by (apply wf_e_int). cbn [obind]. rewrite d_color_int by lia.
  eexists. split; [reflexivity|]. cbv zeta.
  set (w := (if (z <? 9223372036854775808)%Z then z else (z - 18446744073709551616)%Z)).
  change (if (z <? 2 ^ 63)%Z then z else (z - 2 ^ 64)%Z) with w.
  set (q := Z.min (Z.max w (-2147483648)) 2147483647).
  change (Z.min (Z.max w (- 2 ^ 31)) (2 ^ 31 - 1)) with q.
  assert (L : u32_of_i32 q < 4294967296).
  { unfold u32_of_i32. pose proof (Z.mod_pos_bound q 4294967296). lia. }
  unfold color_of_u32. cbn [cval]. rewrite land_u32 by auto. split; [exact L|].
  unfold u32_of_i32 in *. pose proof (Z.mod_pos_bound q 4294967296). change (2 ^ 32)%Z with 4294967296%Z. lia.
Qed.
Print Assumptions C07_saturate.
Example C07_example : print_json (e_color (from_argb 255 0 0 0)) = lit "-16777216" /\
  (let? j := parse_json (lit "-16777216") in d_color j) = Some (from_rgb 0 0 0) /\
  (let? j := parse_json (lit "99999999999") in d_color j) = Some {| cval := 0x7FFFFFFF |} /\
  (let? j := parse_json (lit "18446744073709551615") in d_color j) = Some {| cval := 0xFFFFFFFF |}.
Proof. vm_compute. auto. Qed.

(** C08: complete description (a 6-byte text is read as opaque RGB; one leading '+' is accepted
    otherwise; nothing else is) *)
Theorem C08_parse_hex s c : parse_hex s = Some c <->
  exists t v, hexnum t = Some v /\ v < 2 ^ 32 /\ t <> [] /\
    ((length s = 6%nat /\ s = t /\ cval c = 0xFF000000 + v) \/
     (blen s <> 6%nat /\ (s = t \/ s = 43 :: t) /\ cval c = v)).
Proof. exact (parse_hex_spec s c). Qed.
Print Assumptions C08_parse_hex.
Theorem C08_rrggbb r1 r0 g1 g0 b1 b0 R1 R0 G1 G0 B1 B0 :
  hexv r1 = Some R1 -> hexv r0 = Some R0 -> hexv g1 = Some G1 -> hexv g0 = Some G0 -> hexv b1 = Some B1 -> hexv b0 = Some B0 ->
  parse_hex [r1; r0; g1; g0; b1; b0] = Some (from_rgb (16 * R1 + R0) (16 * G1 + G0) (16 * B1 + B0)).
Proof.
  intros H1 H2 H3 H4 H5 H6. apply C08_parse_hex. exists [r1; r0; g1; g0; b1; b0]. cbn [hexnum length]. rewrite H1, H2, H3, H4, H5, H6.
  apply hexv_lt in H1, H2, H3, H4, H5, H6.
  eexists. split; [reflexivity|]. 
  change (16 ^ N.of_nat 5) with 1048576. change (16 ^ N.of_nat 4) with 65536. change (16 ^ N.of_nat 3) with 4096.
  change (16 ^ N.of_nat 2) with 256. change (16 ^ N.of_nat 1) with 16. change (16 ^ N.of_nat 0) with 1.
  split; [lia|]. split; [discriminate|]. left. split; [reflexivity|]. split; [reflexivity|].
  change (from_rgb ?x ?y ?z) with (from_argb 255 x y z). rewrite argb_value by lia. lia.
Qed.
Print Assumptions C08_rrggbb.
Theorem C08_aarrggbb a1 a0 r1 r0 g1 g0 b1 b0 A1 A0 R1 R0 G1 G0 B1 B0 :
  hexv a1 = Some A1 -> hexv a0 = Some A0 ->
  hexv r1 = Some R1 -> hexv r0 = Some R0 -> hexv g1 = Some G1 -> hexv g0 = Some G0 -> hexv b1 = Some B1 -> hexv b0 = Some B0 ->
  parse_hex [a1; a0; r1; r0; g1; g0; b1; b0] = Some (from_argb (16 * A1 + A0) (16 * R1 + R0) (16 * G1 + G0) (16 * B1 + B0)).
Proof.
  intros H7 H8 H1 H2 H3 H4 H5 H6. apply C08_parse_hex. exists [a1; a0; r1; r0; g1; g0; b1; b0].
  assert (E : exists v, hexnum [a1; a0; r1; r0; g1; g0; b1; b0] = Some v /\ v = (16 * A1 + A0) * 16777216 + (16 * R1 + R0) * 65536 + (16 * G1 + G0) * 256 + (16 * B1 + B0)).
  { cbn [hexnum length]. rewrite H1, H2, H3, H4, H5, H6, H7, H8. eexists. split; [reflexivity|].
    change (16 ^ N.of_nat 7) with 268435456. change (16 ^ N.of_nat 6) with 16777216.
    change (16 ^ N.of_nat 5) with 1048576. change (16 ^ N.of_nat 4) with 65536. change (16 ^ N.of_nat 3) with 4096.
    change (16 ^ N.of_nat 2) with 256. change (16 ^ N.of_nat 1) with 16. change (16 ^ N.of_nat 0) with 1. lia. }
  destruct E as (v & E & Ev). exists v. rewrite (hexnum_blen _ _ E).
  apply hexv_lt in H1, H2, H3, H4, H5, H6, H7, H8.
  split; [exact E|]. split; [lia|]. split; [discriminate|]. right. split; [discriminate|]. split; [left; reflexivity|].
  rewrite argb_value by lia. lia.
Qed.
Print Assumptions C08_aarrggbb.
Theorem C08_errors s :
  ((exists c, In c s /\ hexv c = None) /\ hd 0 s <> 43 -> parse_hex s = None) /\
  ((exists c, In c (tl s) /\ hexv c = None) -> parse_hex s = None) /\
  (forall v, hexnum s = Some v -> 2 ^ 32 <= v -> parse_hex s = None) /\
  (s = [] -> parse_hex s = None).
Proof.
  assert (K : (forall c, parse_hex s <> Some c) -> parse_hex s = None) by (destruct (parse_hex s); auto; intros H; now specialize (H c)).
  split; [|split; [|split]].
  - intros [N H]. apply K. intros c E. apply C08_parse_hex in E as (t & v & Ht & L & Hn & [(_ & -> & _)|(_ & [->| ->] & _)]).
    + apply hexnum_none in N. congruence.
    + apply hexnum_none in N. congruence.
    + now apply H.
  - intros (d & Hd & N). apply K. intros c E. apply C08_parse_hex in E as (t & v & Ht & L & Hn & [(_ & -> & _)|(_ & [->| ->] & _)]).
    + assert (hexnum t = None); [|congruence]. apply hexnum_none. exists d. split; auto. destruct t; [destruct Hd|right; exact Hd].
    + assert (hexnum t = None); [|congruence]. apply hexnum_none. exists d. split; auto. destruct t; [destruct Hd|right; exact Hd].
    + assert (hexnum t = None); [|congruence]. apply hexnum_none. exists d. auto.
  - intros v Hv L. apply K. intros c E. apply C08_parse_hex in E as (t & w & Ht & L2 & Hn & [(_ & -> & _)|(_ & [->| ->] & _)]).
    + rewrite Hv in Ht. injection Ht as ->. lia.
    + rewrite Hv in Ht. injection Ht as ->. lia.
    + apply hexnum_hd in Hv. now cbn in Hv.
  - intros ->. reflexivity.
Qed.
Print Assumptions C08_errors.
Example C08_example : parse_hex (lit "12aBfF") = Some (from_rgb 0x12 0xab 0xff) /\
  parse_hex (lit "8012aBfF") = Some (from_argb 0x80 0x12 0xab 0xff) /\ parse_hex (lit "12aBgF") = None /\
  parse_hex (lit "112345678") = None /\ parse_hex (lit "+1") = Some {| cval := 1 |} /\ parse_hex (lit "+12345") = None.
Proof. vm_compute. auto 10. Qed.

(** C56: the text of a colour is 0x and the eight lower-case hex digits of its value; [parse_hex] reads the digits back *)
Theorem C56_display c : cval c < 2 ^ 32 ->
  exists t, color_display c = lit "0x" ++ t /\ length t = 8%nat /\ incl t (lit "0123456789abcdef") /\
    hexnum t = Some (cval c) /\ parse_hex t = Some c.
Proof.
  intros H. eexists. split; [reflexivity|]. split; [reflexivity|].
  assert (L : forall n, N.land n 15 < 16) by (intros n; change 15 with (N.ones 4); rewrite N.land_ones; apply N.mod_lt; discriminate).
  split.
  { intros x Hx. apply in_map_iff in Hx as (i & <- & _). specialize (L (N.shiftr (cval c) (4 * i))). generalize dependent (N.land (N.shiftr (cval c) (4 * i)) 15). intros n Hn.
    assert (A : forallb (fun n => existsb (N.eqb (hexdig n)) (lit "0123456789abcdef")) [0;1;2;3;4;5;6;7;8;9;10;11;12;13;14;15] = true) by (vm_compute; reflexivity).
    rewrite forallb_forall in A. specialize (A n). rewrite existsb_exists in A. destruct A as (y & Hy & E); [|apply N.eqb_eq in E; now rewrite E].
    assert (n = 0 \/ n = 1 \/ n = 2 \/ n = 3 \/ n = 4 \/ n = 5 \/ n = 6 \/ n = 7 \/ n = 8 \/ n = 9 \/ n = 10 \/ n = 11 \/ n = 12 \/ n = 13 \/ n = 14 \/ n = 15) by lia.
    cbn [In]. intuition. }
  assert (D : forall i, exists d, hexv (hexdig (N.land (N.shiftr (cval c) (4 * i)) 15)) = Some d /\ N.shiftr (cval c) (4 * i) = 16 * N.shiftr (cval c) (4 * (i + 1)) + d).
  { intros i. exists (N.land (N.shiftr (cval c) (4 * i)) 15). split.
    - rewrite <- hexv_digit. now apply hexdig_val.
    - replace (4 * (i + 1)) with (4 * i + 4) by lia. rewrite <- N.shiftr_shiftr, (N.shiftr_div_pow2 _ 4). change 15 with (N.ones 4). rewrite N.land_ones.
      change (2 ^ 4) with 16. apply N.div_mod. discriminate. }
  assert (E : hexnum (map (fun i => hexdig (N.land (N.shiftr (cval c) (4 * i)) 15)) [7; 6; 5; 4; 3; 2; 1; 0]) = Some (cval c)).
  { destruct (D 0) as (d0 & H0 & E0), (D 1) as (d1 & H1 & E1), (D 2) as (d2 & H2 & E2), (D 3) as (d3 & H3 & E3),
      (D 4) as (d4 & H4 & E4), (D 5) as (d5 & H5 & E5), (D 6) as (d6 & H6 & E6), (D 7) as (d7 & H7 & E7).
    cbn [map hexnum length]. rewrite H0, H1, H2, H3, H4, H5, H6, H7.
    change (16 ^ N.of_nat 7) with 268435456. change (16 ^ N.of_nat 6) with 16777216.
    change (16 ^ N.of_nat 5) with 1048576. change (16 ^ N.of_nat 4) with 65536. change (16 ^ N.of_nat 3) with 4096.
    change (16 ^ N.of_nat 2) with 256. change (16 ^ N.of_nat 1) with 16. change (16 ^ N.of_nat 0) with 1.
    cbn [N.add Pos.add Pos.succ] in E0, E1, E2, E3, E4, E5, E6, E7.
    assert (Z : N.shiftr (cval c) (4 * 8) = 0) by (rewrite N.shiftr_div_pow2; change (2 ^ (4 * 8)) with (2 ^ 32); now apply N.div_small).
    change (N.shiftr (cval c) (4 * 0)) with (cval c) in E0. f_equal. lia. }
  split; [exact E|]. apply C08_parse_hex. eexists _, _. split; [exact E|]. split; [exact H|]. split; [discriminate|]. right.
  split; [rewrite (hexnum_blen _ _ E); discriminate|]. auto.
Qed.
Print Assumptions C56_display.
Theorem C56_injective c d : cval c < 2 ^ 32 -> cval d < 2 ^ 32 -> color_display c = color_display d -> c = d.
Proof.
  intros Hc Hd E. destruct (C56_display c Hc) as (t & Ht & _ & _ & _ & P), (C56_display d Hd) as (u & Hu & _ & _ & _ & Q).
  rewrite Ht, Hu in E. apply app_inv_head in E. congruence.
Qed.
Print Assumptions C56_injective.
Example C56_example : color_display (from_argb 0 0xAB 0x0C 0xFF) = lit "0x00ab0cff" /\ parse_hex (lit "00ab0cff") = Some (from_argb 0 0xAB 0x0C 0xFF).
Proof. vm_compute. auto. Qed.

(** C10 *)
Theorem C10_options_roundtrip o : options_from_num (options_as_num o) = o /\ options_as_num o < 16.
Proof. split; [apply options_rt|apply options_lt]. Qed.
Print Assumptions C10_options_roundtrip.
Theorem C10_options_low_bits n : n < 256 -> options_as_num (options_from_num n) = n mod 16.
Proof.
  intros H.
  assert (G : forallb (fun n => options_as_num (options_from_num n) =? n mod 16) (map N.of_nat (seq 0 256)) = true)
    by (vm_compute; reflexivity).
  rewrite forallb_forall in G. apply N.eqb_eq, G. apply in_map_iff. exists (N.to_nat n). split; [lia|apply in_seq; lia].
Qed.
Print Assumptions C10_options_low_bits.
(** which bit is which option *)
Theorem C10_options_bits n : n < 256 ->
  options_from_num n = {| ao_toolbar := N.testbit n 0; ao_fullscreen := N.testbit n 1;
                          ao_drawer := N.testbit n 2; ao_fab := N.testbit n 3 |}.
Proof.
  intros H.
  assert (G : forallb (fun n => eqb (ao_toolbar (options_from_num n)) (N.testbit n 0) && eqb (ao_fullscreen (options_from_num n)) (N.testbit n 1)
     && eqb (ao_drawer (options_from_num n)) (N.testbit n 2) && eqb (ao_fab (options_from_num n)) (N.testbit n 3)) (map N.of_nat (seq 0 256)) = true)
    by (vm_compute; reflexivity).
  rewrite forallb_forall in G. specialize (G n). rewrite in_map_iff in G.
  assert (E : exists x, N.of_nat x = n /\ In x (seq 0 256)) by (exists (N.to_nat n); split; [lia|apply in_seq; lia]).
  apply G in E. rewrite !andb_true_iff in E. destruct E as [[[A B] C] D]. apply eqb_prop in A, B, C, D.
  destruct (options_from_num n); cbn in *; congruence.
Qed.
Print Assumptions C10_options_bits.
Example C10_example : options_as_num {| ao_toolbar := true; ao_fullscreen := false; ao_drawer := true; ao_fab := true |} = 13 /\
  options_as_num (options_from_num 0xF5) = 5.
Proof. vm_compute. auto. Qed.
