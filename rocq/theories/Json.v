(** JSON text and derive(Serialize/Deserialize) as used through serde_json 1.x by
    /repo/src/parser/*.rs ([serde_json::from_str] / [serde_json::to_string]).

    External code, modelled from its documented behaviour:
    - text is first read into a tree and then decoded; serde streams, but the outcome (Ok / Err) is
      the same. Where decoding can panic (project.rs), the members before a fault are decoded too
      ([members_read]). Error texts and positions are not modelled.
    - a tree keeps string escapes that are not valid UTF-16 as [None]: such a string is an error
      when it is read as a string or key, but is accepted inside ignored fields.
    - numbers are kept as digits; range checks happen when a number is decoded. *)
From Verif Require Import Base Dec Flt.

Record jnum := { jneg : bool; jint : str; jfrac : option str; jexp : option (bool * str) }.

Inductive json :=
| JNull
| JBool (b : bool)
| JNum (n : jnum)
| JStr (s : option str)
| JArr (l : list json)
| JObj (l : list (option str * json)).

(** ** Reader *)
Definition jws (c : char) : bool := (c =? 32) || (c =? 10) || (c =? 9) || (c =? 13).
Fixpoint skip_ws (s : str) : str :=
  match s with
  | c :: r => if jws c then skip_ws r else s
  | [] => []
  end.

Inductive sunit := UC (c : char) | UE (code : N).
Definition hex4 (a b c d : char) : option N :=
  let? x := to_digit 16 a in let? y := to_digit 16 b in
  let? z := to_digit 16 c in let? w := to_digit 16 d in
  Some (((x * 16 + y) * 16 + z) * 16 + w).
(** simple escapes of [parse_escape] *)
Definition simple_escape (e : char) : option char :=
  if (e =? 34) || (e =? 92) || (e =? 47) then Some e
  else if e =? 98 then Some 8
  else if e =? 102 then Some 12
  else if e =? 110 then Some 10
  else if e =? 114 then Some 13
  else if e =? 116 then Some 9
  else None.
(** string body after the opening quote *)
Fixpoint pstr (s : str) : option (list sunit * str) :=
  match s with
  | [] => None
  | c :: r =>
    if c =? 34 then Some ([], r)
    else if c =? 92 then
      match r with
      | [] => None
      | e :: r1 =>
        match simple_escape e with
        | Some x => let? (u, q) := pstr r1 in Some (UC x :: u, q)
        | None =>
          if e =? 117 then
            match r1 with
            | h1 :: h2 :: h3 :: h4 :: r2 =>
              match hex4 h1 h2 h3 h4 with
              | Some v => let? (u, q) := pstr r2 in Some (UE v :: u, q)
              | None => None
              end
            | _ => None
            end
          else None
        end
      end
    else if c <? 32 then None
    else let? (u, q) := pstr r in Some (UC c :: u, q)
  end.
(** surrogate pairs of \u escapes; lone surrogates are invalid *)
Fixpoint join_units (l : list sunit) : option str :=
  match l with
  | [] => Some []
  | UC c :: r => option_map (cons c) (join_units r)
  | UE u :: r =>
    if (0xD800 <=? u) && (u <? 0xDC00) then
      match r with
      | UE v :: r' =>
        if (0xDC00 <=? v) && (v <? 0xE000)
        then option_map (cons (0x10000 + (u - 0xD800) * 1024 + (v - 0xDC00))) (join_units r')
        else None
      | _ => None
      end
    else if (0xDC00 <=? u) && (u <? 0xE000) then None
    else option_map (cons u) (join_units r)
  end.

(** number: [-] int [. digits] [e [sign] digits], no superfluous leading zero *)
Definition pnum (s : str) : option (jnum * str) :=
  let '(neg, s1) := match s with
                    | c :: r => if c =? 45 then (true, r) else (false, s)
                    | [] => (false, s) end in
  let '(ip, s2) := span_digits s1 in
  let ip_ok := match ip with
               | [] => false
               | d :: r => if d =? 48 then match r with [] => true | _ => false end else true
               end in
  if negb ip_ok then None
  else
    let? (fp, s3) := match s2 with
                     | c :: r => if c =? 46 then
                                   let '(ds, q) := span_digits r in
                                   match ds with [] => None | _ => Some (Some ds, q) end
                                 else Some (None, s2)
                     | [] => Some (None, s2) end in
    let? (ex, s4) := match s3 with
                     | c :: r =>
                       if (c =? 101) || (c =? 69) then
                         let '(eneg, r1) := match r with
                                            | d :: r' => if d =? 45 then (true, r')
                                                         else if d =? 43 then (false, r') else (false, r)
                                            | [] => (false, r) end in
                         let '(ds, q) := span_digits r1 in
                         match ds with [] => None | _ => Some (Some (eneg, ds), q) end
                       else Some (None, s3)
                     | [] => Some (None, s3) end in
    Some ({| jneg := neg; jint := ip; jfrac := fp; jexp := ex |}, s4).

Fixpoint pval (fuel : nat) (s : str) {struct fuel} : option (json * str) :=
  match fuel with
  | O => None
  | S f =>
    match skip_ws s with
    | [] => None
    | c :: r =>
      if c =? 34 then let? (u, q) := pstr r in Some (JStr (join_units u), q)
      else if c =? 91 then
        match skip_ws r with
        | d :: q => if d =? 93 then Some (JArr [], q)
                    else let? (l, q') := pelems f r in Some (JArr l, q')
        | [] => None
        end
      else if c =? 123 then
        match skip_ws r with
        | d :: q => if d =? 125 then Some (JObj [], q)
                    else let? (l, q') := pmems f r in Some (JObj l, q')
        | [] => None
        end
      else if c =? 110 then let? q := strip_prefix (lit "ull") r in Some (JNull, q)
      else if c =? 116 then let? q := strip_prefix (lit "rue") r in Some (JBool true, q)
      else if c =? 102 then let? q := strip_prefix (lit "alse") r in Some (JBool false, q)
      else if (c =? 45) || is_digit c then
        let? (n, q) := pnum (c :: r) in Some (JNum n, q)
      else None
    end
  end
with pelems (fuel : nat) (s : str) {struct fuel} : option (list json * str) :=
  match fuel with
  | O => None
  | S f =>
    let? (v, r) := pval f s in
    match skip_ws r with
    | c :: q => if c =? 44 then let? (l, q') := pelems f q in Some (v :: l, q')
                else if c =? 93 then Some ([v], q) else None
    | [] => None
    end
  end
with pmems (fuel : nat) (s : str) {struct fuel} : option (list (option str * json) * str) :=
  match fuel with
  | O => None
  | S f =>
    match skip_ws s with
    | c :: r =>
      if c =? 34 then
        let? (u, q0) := pstr r in
        match skip_ws q0 with
        | d :: q1 =>
          if d =? 58 then
            let? (v, q2) := pval f q1 in
            match skip_ws q2 with
            | e :: q => if e =? 44 then let? (l, q') := pmems f q in Some ((join_units u, v) :: l, q')
                        else if e =? 125 then Some ([(join_units u, v)], q) else None
            | [] => None
            end
          else None
        | [] => None
        end
      else None
    | [] => None
    end
  end.
(** the members of an object that are read completely before the text ends or a fault is met *)
Fixpoint pmems_read (fuel : nat) (s : str) : list (option str * json) :=
  match fuel with
  | O => []
  | S f =>
    match skip_ws s with
    | c :: r =>
      if c =? 34 then
        match pstr r with
        | Some (u, q0) =>
          match skip_ws q0 with
          | d :: q1 =>
            if d =? 58 then
              match pval f q1 with
              | Some (v, q2) => (join_units u, v) :: match skip_ws q2 with
                                                     | e :: q => if e =? 44 then pmems_read f q else []
                                                     | [] => []
                                                     end
              | None => []
              end
            else []
          | [] => []
          end
        | None => []
        end
      else []
    | [] => []
    end
  end.
Definition members_read (s : str) : list (option str * json) :=
  match skip_ws s with
  | c :: r => if c =? 123 then pmems_read (2 * length s + 2) r else []
  | [] => []
  end.
(** [serde_json::from_str] up to decoding: one value, then only white space.
    The fuel is never exhausted (see [JsonProofs.pval_fuel]). *)
Definition parse_json (s : str) : option json :=
  let? (v, r) := pval (2 * length s + 2) s in
  match skip_ws r with [] => Some v | _ => None end.

(** ** Writer (compact) *)
Definition hexdig (n : N) : char := if n <? 10 then 48 + n else 87 + n.
(** [format_escaped_str] *)
Definition esc_char (c : char) : str :=
  if c =? 34 then [92; 34]
  else if c =? 92 then [92; 92]
  else if c =? 8 then [92; 98]
  else if c =? 12 then [92; 102]
  else if c =? 10 then [92; 110]
  else if c =? 13 then [92; 114]
  else if c =? 9 then [92; 116]
  else if c <? 32 then [92; 117; 48; 48; hexdig (c / 16); hexdig (c mod 16)]
  else [c].
Definition print_str (s : str) : str := 34 :: concat (map esc_char s) ++ [34].
(** [None] stands for an invalid escape sequence; serde_json never writes one *)
Definition print_ostr (s : option str) : str :=
  match s with Some s => print_str s | None => lit """\ud800""" end.
Definition print_num (n : jnum) : str :=
  (if jneg n then [45] else []) ++ jint n ++
  (match jfrac n with Some f => 46 :: f | None => [] end) ++
  (match jexp n with Some (eneg, ds) => 101 :: (if eneg then [45] else []) ++ ds | None => [] end).

Fixpoint print_json (j : json) : str :=
  match j with
  | JNull => lit "null"
  | JBool true => lit "true"
  | JBool false => lit "false"
  | JNum n => print_num n
  | JStr s => print_ostr s
  | JArr l => 91 :: join 44 (map print_json l) ++ [93]
  | JObj l => 123 :: join 44 (map (fun kv => print_ostr (fst kv) ++ 58 :: print_json (snd kv)) l) ++ [125]
  end.

(** ** Numbers as machine values *)
Inductive numclass := NU64 (v : N) | NI64 (v : Z) | NF64 (x : flt) | NRange (* number out of range *).
Definition POW10_308 : flt := round_ratio F64 false (10 ^ 308) 1.
(** [f64_from_parts]: not correctly rounded in general. The loop divides by 1e308 until the
    exponent is in the table or the value is zero; two steps reach zero. *)
Fixpoint f64_from_parts (fuel : nat) (f : flt) (ex : Z) : option flt :=
  if (Z.abs ex <=? 308)%Z then
    let pow := round_ratio F64 false (10 ^ Z.to_N (Z.abs ex)) 1 in
    if (0 <=? ex)%Z then
      match fmul f pow with FInf _ => None | r => Some r end
    else Some (fdiv f pow)
  else
    match f with
    | FZero _ => Some f
    | _ => if (0 <=? ex)%Z then None
           else match fuel with
                | O => Some (FZero false)
                | S k => f64_from_parts k (fdiv f POW10_308) (ex + 308)%Z
                end
    end.
(** integer digits: accumulate until a digit would overflow u64, count the remaining ones *)
Fixpoint acc_int (acc : N) (ds : str) : N * Z :=
  match ds with
  | [] => (acc, 0%Z)
  | d :: r => let v := acc * 10 + (d - 48) in
              if v <=? U64MAX then acc_int v r else (acc, Z.of_nat (length ds))
  end.
(** fraction digits: accumulate until overflow, ignore the rest *)
Fixpoint acc_frac (acc : N) (ex : Z) (ds : str) : N * Z :=
  match ds with
  | [] => (acc, ex)
  | d :: r => let v := acc * 10 + (d - 48) in
              if v <=? U64MAX then acc_frac v (ex - 1)%Z r else (acc, ex)
  end.
(** [parse_any_signed_number]: u64 / i64 / f64 *)
Definition classify (n : jnum) : numclass :=
  let '(sig, ex0) := acc_int 0 (jint n) in
  match jfrac n, jexp n, (ex0 =? 0)%Z with
  | None, None, true =>
    if jneg n then
      (* -0 and values below i64::MIN become floats *)
      if (sig =? 0) || (9223372036854775808 <? sig) then NF64 (flt_neg (f64_of_N sig))
      else NI64 (- Z.of_N sig)
    else NU64 sig
  | fr, e, _ =>
    let '(sig2, ex1) := acc_frac sig ex0 (match fr with Some ds => ds | None => [] end) in
    let sgn (x : flt) := if jneg n then flt_neg x else x in
    match e with
    | None => match f64_from_parts 3 (f64_of_N sig2) ex1 with
              | Some x => NF64 (sgn x) | None => NRange end
    | Some (eneg, ds) =>
      let ev := digits_N ds in
      if 2147483647 <? ev then   (* [parse_exponent_overflow] *)
        if negb (sig2 =? 0) && negb eneg then NRange else NF64 (sgn (FZero false))
      else
        let ex2 := if eneg then Z.max (ex1 - Z.of_N ev) (-2147483648) else Z.min (ex1 + Z.of_N ev) 2147483647 in
        match f64_from_parts 3 (f64_of_N sig2) ex2 with
        | Some x => NF64 (sgn x) | None => NRange end
    end
  end.

(** ** Decoders for field types ([Deserialize] of std types) *)
Definition d_str (j : json) : option str := match j with JStr (Some s) => Some s | _ => None end.
Definition d_bool (j : json) : option bool := match j with JBool b => Some b | _ => None end.
(** integers accept only integer numbers in range *)
Definition d_int (lo hi : Z) (j : json) : option Z :=
  match j with
  | JNum n => match classify n with
              | NU64 v => if (Z.of_N v <=? hi)%Z then Some (Z.of_N v) else None
              | NI64 v => if (lo <=? v)%Z && (v <=? hi)%Z then Some v else None
              | _ => None
              end
  | _ => None
  end.
Definition d_u8 (j : json) : option N := option_map Z.to_N (d_int 0 255 j).
Definition d_u32 (j : json) : option N := option_map Z.to_N (d_int 0 4294967295 j).
Definition d_i8 := d_int (-128) 127.
Definition d_i32 := d_int (-2147483648) 2147483647.
Definition d_f32 (j : json) : option flt :=
  match j with
  | JNum n => match classify n with
              | NU64 v => Some (round_ratio F32 false v 1)
              | NI64 v => Some (flt_neg (round_ratio F32 false (Z.to_N (- v)) 1))
              | NF64 x => Some (f32_of_f64 x)
              | NRange => None
              end
  | _ => None
  end.
Definition d_list {A} (d : json -> option A) (j : json) : option (list A) :=
  match j with JArr l => omapM d l | _ => None end.
Definition d_option {A} (d : json -> option A) (j : json) : option (option A) :=
  match j with JNull => Some None | _ => option_map Some (d j) end.

(** ** derive(Deserialize) for structs: the value of every field, by position (arrays) or by
    name (objects: any order, unknown names ignored, a repeated known name is an error). *)
Definition okey_eqb (n : str) (k : option str) : bool :=
  match k with Some k => str_eqb n k | None => false end.
Definition field_of (kvs : list (option str * json)) (name : str) : option (option json) :=
  match filter (fun kv => okey_eqb name (fst kv)) kvs with
  | [] => Some None
  | [kv] => Some (Some (snd kv))
  | _ => None
  end.
Definition key_valid (kv : option str * json) : bool := match fst kv with Some _ => true | None => false end.
Definition struct_fields (names : list str) (j : json) : option (list (option json)) :=
  match j with
  | JArr l => if (length l <=? length names)%nat
              then Some (map Some l ++ repeat None (length names - length l)) else None
  | JObj kvs => if forallb key_valid kvs then omapM (field_of kvs) names else None
  | _ => None
  end.
(** a field without default / with [#[serde(default)]] *)
Definition req {A} (d : json -> option A) (o : option json) : option A :=
  match o with Some j => d j | None => None end.
Definition dflt {A} (d : json -> option A) (a : A) (o : option json) : option A :=
  match o with Some j => d j | None => Some a end.
(** unit-only enums: the variant name, or an object with the variant name and null *)
Definition d_enum (j : json) : option str :=
  match j with
  | JStr (Some s) => Some s
  | JObj [(Some s, JNull)] => Some s
  | _ => None
  end.

(** ** Encoders *)
Definition e_str (s : str) : json := JStr (Some s).
Definition e_nat (n : N) : json := JNum {| jneg := false; jint := dec_of_N n; jfrac := None; jexp := None |}.
Definition e_int (z : Z) : json :=
  match z with
  | Zneg p => JNum {| jneg := true; jint := dec_of_N (Npos p); jfrac := None; jexp := None |}
  | _ => e_nat (Z.to_N z)
  end.
Definition e_obj (l : list (string * json)) : json := JObj (map (fun kv => (Some (lit (fst kv)), snd kv)) l).
(** ryu's layout of shortest digits [ds] times 10^k (f32 limits) *)
Definition ryu_num (neg : bool) (D : N) (k : Z) : jnum :=
  let ds := dec_of_N D in
  let len := Z.of_nat (length ds) in
  let kk := (len + k)%Z in
  if ((0 <=? k) && (kk <=? 13))%Z then
    {| jneg := neg; jint := ds ++ repeat CH_0 (Z.to_nat k); jfrac := Some [CH_0]; jexp := None |}
  else if ((0 <? kk) && (kk <=? 13))%Z then
    {| jneg := neg; jint := firstn (Z.to_nat kk) ds; jfrac := Some (skipn (Z.to_nat kk) ds); jexp := None |}
  else if ((-6 <? kk) && (kk <=? 0))%Z then
    {| jneg := neg; jint := [CH_0]; jfrac := Some (repeat CH_0 (Z.to_nat (- kk)) ++ ds); jexp := None |}
  else
    {| jneg := neg; jint := firstn 1 ds;
       jfrac := match skipn 1 ds with [] => None | r => Some r end;
       jexp := Some ((kk - 1 <? 0)%Z, dec_of_N (Z.to_N (Z.abs (kk - 1)))) |}.
(** [serialize_f32]: null for non-finite values *)
Definition e_f32 (x : flt) : json :=
  match x with
  | FNan | FInf _ => JNull
  | FZero s => JNum {| jneg := s; jint := [CH_0]; jfrac := Some [CH_0]; jexp := None |}
  | FFin s m e =>
    let ok D E := flt_eqb (round_dec F32 false D E) (FFin false m e) in
    let '(D, E) := shortest false ok F32 m e in
    (* the only candidate with a trailing zero is 10 * 10^E *)
    if D mod 10 =? 0 then JNum (ryu_num s (D / 10) (E + 1)) else JNum (ryu_num s D E)
  end.
