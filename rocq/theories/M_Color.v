(** Model of /repo/src/color.rs. *)
From Verif Require Import Base Dec Flt Json.

(** color.rs L6-10: a colour is its u32 value *)
Record color := { cval : N }.
(** color.rs L38-43 *)
Definition color_of_u32 (v : N) : color := {| cval := N.land v 0xffffffff |}.
(** color.rs L13-20; [u32::from_str_radix] *)
Definition parse_hex (txt : str) : option color :=
  let hex := (if (blen txt =? 6)%nat then lit "ff" else []) ++ txt in
  option_map color_of_u32 (parse_uint 16 U32MAX hex).
(** color.rs L26-28; the u8 arguments are widened to u32 first, so no bit is shifted out *)
Definition from_argb (a r g b : N) : color :=
  {| cval := N.lor (N.lor (N.lor (N.shiftl a 24) (N.shiftl r 16)) (N.shiftl g 8)) b |}.
(** color.rs L22-24 *)
Definition from_rgb (r g b : N) : color :=
  {| cval := N.lor (N.lor (N.lor (N.shiftl 0xFF 24) (N.shiftl r 16)) (N.shiftl g 8)) b |}.
(** [as u8] *)
Definition as_u8 (n : N) : N := N.land n 0xff.
(** color.rs L32-35: a nine-bit mask, then truncation to u8 *)
Definition alpha (c : color) : N := as_u8 (N.land (N.shiftr (cval c) 24) 511).
Definition red (c : color) : N := as_u8 (N.land (N.shiftr (cval c) 16) 511).
Definition green (c : color) : N := as_u8 (N.land (N.shiftr (cval c) 8) 511).
Definition blue (c : color) : N := as_u8 (N.land (N.shiftr (cval c) 0) 511).
(** color.rs L30 *)
Definition rgb (c : color) : N * N * N := (red c, green c, blue c).
(** color.rs L57-61 *)
Definition color_default : color := from_rgb 0 0 0.

(** [as i32] of a u32, [as u32] of an i32, [as i64] of a u64 *)
Definition i32_of_u32 (v : N) : Z := if v <? 2147483648 then Z.of_N v else (Z.of_N v - 4294967296)%Z.
Definition u32_of_i32 (z : Z) : N := Z.to_N (z mod 4294967296).
Definition i64_of_u64 (v : N) : Z := if v <? 9223372036854775808 then Z.of_N v else (Z.of_N v - 18446744073709551616)%Z.
(** [as f64] of an i64 *)
Definition f64_of_Z (z : Z) : flt :=
  match z with Zneg p => flt_neg (f64_of_N (Npos p)) | _ => f64_of_N (Z.to_N z) end.

(** color.rs L63-67 *)
Definition e_color (c : color) : json := e_int (i32_of_u32 (cval c)).
(** color.rs L87-92 *)
Definition visit_f64 (x : flt) : color := color_of_u32 (u32_of_i32 (i32_of_flt x)).
(** color.rs L79-81 *)
Definition visit_i64 (z : Z) : color := visit_f64 (f64_of_Z z).
(** color.rs L83-85 *)
Definition visit_u64 (v : N) : color := visit_i64 (i64_of_u64 v).
(** color.rs L69-98, [deserialize_any]: any JSON value that is not a number is an error *)
Definition d_color (j : json) : option color :=
  match j with
  | JNum n => match classify n with
              | NU64 v => Some (visit_u64 v)
              | NI64 z => Some (visit_i64 z)
              | NF64 x => Some (visit_f64 x)
              | NRange => None
              end
  | _ => None
  end.

(** color.rs L45-49 (Display) and L51-55 (Debug), [{:#010x}]: 0x and eight lower-case hex digits (padded with zeros) *)
Definition color_display (c : color) : str :=
  lit "0x" ++ map (fun i => hexdig (N.land (N.shiftr (cval c) (4 * i)) 15)) [7; 6; 5; 4; 3; 2; 1; 0].
