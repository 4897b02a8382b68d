(** Python's conversions between doubles and text, as used by fit/io/text.py:
    [float(s)] (text.py:74, 80, 164, 167, 176) and ['{}'.format(x)] (text.py:37-49,
    113-131).  Parsing rounds the decimal number to the nearest double, ties to the
    even one; formatting writes the shortest decimal that parses to the double, the
    one nearest to it if there are several.  (CPython: dtoa.c, pystrtod.c; exponents
    of more than four digits are not cut.) *)
From Coq Require Import Ascii String Floats.
From Verif Require Import Py Num ModelIO.
Open Scope Z_scope.

(** ** Parsing *)
Definition read_exponent (s : text) : option Z :=
  match s with
  | [] => Some 0
  | c :: t =>
      if ascii_dec c "e" then
        let (neg, r) := read_sign t in
        match read_digits r with
        | (d :: ds, []) => Some (if neg then - number (d :: ds) else number (d :: ds))
        | _ => None
        end
      else None
  end.
(** The digits and the exponent of an unsigned decimal: it denotes m * 10^k. *)
Definition read_decimal (s : text) : option (Z * Z) :=
  let (ip, s1) := read_digits s in
  let (fp, s2) := match s1 with
                  | c :: t => if ascii_dec c "." then read_digits t else ([], s1)
                  | [] => ([], s1)
                  end in
  match ip ++ fp with
  | [] => None
  | ds => match read_exponent s2 with Some e => Some (number ds, e - zlen fp) | None => None end
  end.
Definition lower (c : ascii) : ascii :=
  let n := nat_of_ascii c in if ((65 <=? n) && (n <=? 90))%nat then ascii_of_nat (n + 32) else c.
(** The double nearest to (-1)^s m 10^k. *)
Definition nearest (s : bool) (m k : Z) : PrimFloat.float :=
  match m with
  | Zpos _ =>
      let (a, b) := if 0 <=? k then (m * 10 ^ k, 1) else (m, 10 ^ (- k)) in
      let '(q, e, l) := SpecFloat.SFdiv_core_binary FloatOps.prec FloatOps.emax a 0 b 0 in
      FloatOps.SF2Prim (SpecFloat.binary_round_aux FloatOps.prec FloatOps.emax s q e l)
  | _ => FloatOps.SF2Prim (SpecFloat.S754_zero s)
  end.
(** [float(s)]. *)
Definition py_float (s : text) : res PrimFloat.float :=
  match drop_underscores false (strip s) with
  | None => Err ValueError
  | Some t =>
      let (neg, r) := read_sign (map lower t) in
      if text_eqb r (txt "inf") || text_eqb r (txt "infinity") then Ok (if neg then PrimFloat.neg_infinity else PrimFloat.infinity)
      else if text_eqb r (txt "nan") then Ok PrimFloat.nan
      else match read_decimal r with Some (m, k) => Ok (nearest neg m k) | None => Err ValueError end
  end.

(** ** Formatting *)
Definition digit_char (d : Z) : ascii := ascii_of_nat (Z.to_nat (48 + d)).
(** The last [n] digits of [c]. *)
Fixpoint digits (n : nat) (c : Z) : text :=
  match n with O => [] | S n' => digits n' (c / 10) ++ [digit_char (c mod 10)] end.
(** num / den < 10^j *)
Definition below10 (num den j : Z) : bool := if 0 <=? j then num <? den * 10 ^ j else num * 10 ^ (- j) <? den.
(** The position of the decimal point: 10^(j-1) <= num / den < 10^j. *)
Definition point_position (num den : Z) : Z :=
  match find (below10 num den) (zrange (-323) 310) with Some j => j | None => 310 end.
(** The decimals with [n] digits next to num / den, if they parse to [x]. *)
Definition pick (x : PrimFloat.float) (s : bool) (num den j n : Z) : option Z :=
  let k := j - n in
  let (a, b) := if 0 <=? k then (num, den * 10 ^ k) else (num * 10 ^ (- k), den) in
  let q := a / b in
  let r := a mod b in
  match PrimFloat.eqb (nearest s q k) x, PrimFloat.eqb (nearest s (q + 1) k) x with
  | true, true => Some (if (2 * r <? b) || ((2 * r =? b) && Z.even q) then q else q + 1)
  | true, false => Some q
  | false, true => Some (q + 1)
  | false, false => None
  end.
Fixpoint shortest (x : PrimFloat.float) (s : bool) (num den j : Z) (ns : list Z) : Z * Z :=
  match ns with
  | [] => (0, 0)
  | n :: t => match pick x s num den j n with Some c => (c, n) | None => shortest x s num den j t end
  end.
(** The digits [ds] with the decimal point after the [j]-th. *)
Definition layout (ds : text) (j : Z) : text :=
  if (-4 <? j) && (j <=? 16) then
    if j <=? 0 then txt "0." ++ repeat "0"%char (Z.to_nat (- j)) ++ ds
    else if zlen ds <=? j then ds ++ repeat "0"%char (Z.to_nat (j - zlen ds)) ++ txt ".0"
    else firstn (Z.to_nat j) ds ++ "."%char :: skipn (Z.to_nat j) ds
  else
    firstn 1 ds ++ (match skipn 1 ds with [] => [] | r => "."%char :: r end) ++
    "e"%char :: (if j - 1 <? 0 then "-"%char else "+"%char) :: (let e := Z.abs (j - 1) in if e <? 100 then digits 2 e else digits 3 e).
(** ['{}'.format(x)]. *)
Definition fmt_float (x : PrimFloat.float) : text :=
  match FloatOps.Prim2SF x with
  | SpecFloat.S754_nan => txt "nan"
  | SpecFloat.S754_infinity s => if s then txt "-inf" else txt "inf"
  | SpecFloat.S754_zero s => if s then txt "-0.0" else txt "0.0"
  | SpecFloat.S754_finite s m e =>
      let (num, den) := if 0 <=? e then (Zpos m * 2 ^ e, 1) else (Zpos m, 2 ^ (- e)) in
      let j := point_position num den in
      let (c, n) := shortest x s num den j (zrange 1 18) in
      let body := if c =? 10 ^ n then layout (digits 1 1) (j + 1) else layout (digits (Z.to_nat n) c) j in
      if s then "-"%char :: body else body
  end.
Definition python_codec : codec Binary64 := mkCodec (K := Binary64) fmt_float py_float.
