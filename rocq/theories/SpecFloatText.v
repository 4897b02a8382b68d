(** Decimal numbers and the text of doubles. *)
From Coq Require Import Reals ZArith Ascii String List.
From Flocq Require Import Core.Core.
Import ListNotations.
Open Scope R_scope.
(** m * 10^k with a sign *)
Definition decimal (s : bool) (m k : Z) : R := (if s then - IZR m else IZR m) * powerRZ 10 k.
(** The real number rounded to a double with unbounded exponent above: nearest, ties to even. *)
Definition rounded (r : R) : R := round radix2 (FLT_exp (-1074) 53) ZnearestE r.
(** The number with the given decimal digits, most significant first. *)
Fixpoint positional (ds : list Z) : Z :=
  match ds with [] => 0 | d :: t => d * 10 ^ Z.of_nat (List.length t) + positional t end%Z.
Definition decimal_digits (ds : list Z) : Prop := Forall (fun d => 0 <= d <= 9)%Z ds.
Definition chars (ds : list Z) : list ascii := map (fun d => nth (Z.to_nat d) (list_ascii_of_string "0123456789") "?"%char) ds.
(** [sign]digits[.digits][e[sign]digits] and the number it denotes; [Some true] is a minus. *)
Definition sign_text (sg : option bool) : list ascii :=
  match sg with Some true => ["-"%char] | Some false => ["+"%char] | None => [] end.
Definition minus (sg : option bool) : bool := match sg with Some b => b | None => false end.
Definition literal (sg : option bool) (ip : list Z) (fp : option (list Z)) (ex : option (option bool * list Z)) : list ascii :=
  sign_text sg ++ chars ip ++
  (match fp with Some f => "."%char :: chars f | None => [] end) ++
  (match ex with Some (esg, d) => "e"%char :: sign_text esg ++ chars d | None => [] end).
Definition fraction_digits (fp : option (list Z)) : list Z := match fp with Some f => f | None => [] end.
Definition exponent_value (ex : option (option bool * list Z)) : Z :=
  match ex with Some (esg, d) => if minus esg then - positional d else positional d | None => 0 end%Z.
Definition literal_value (sg : option bool) (ip : list Z) (fp : option (list Z)) (ex : option (option bool * list Z)) : R :=
  decimal (minus sg) (positional (ip ++ fraction_digits fp)) (exponent_value ex - Z.of_nat (List.length (fraction_digits fp))).
Definition well_formed (ip : list Z) (fp : option (list Z)) (ex : option (option bool * list Z)) : Prop :=
  decimal_digits ip /\ decimal_digits (fraction_digits fp) /\ (ip ++ fraction_digits fp <> []) /\
  match ex with Some (_, d) => decimal_digits d /\ d <> [] | None => True end.
(** The usual way to write a number: without needless zeros, one digit before the
    point and at least two in the exponent if there is an exponent, a point otherwise. *)
Definition usual (ip : list Z) (fp : option (list Z)) (ex : option (option bool * list Z)) : Prop :=
  match ex with
  | None => (List.length ip = 1%nat \/ hd 0%Z ip <> 0%Z) /\ (List.length (fraction_digits fp) = 1%nat \/ last (fraction_digits fp) 0%Z <> 0%Z)
  | Some (esg, d) => List.length ip = 1%nat /\ hd 0%Z ip <> 0%Z /\ (fp = None \/ last (fraction_digits fp) 0%Z <> 0%Z) /\
      esg <> None /\ (List.length d = 2%nat \/ (2 < List.length d)%nat /\ hd 0%Z d <> 0%Z)
  end.
(** Blanks: tab, line feed, vertical tab, form feed, carriage return, the four
    separators before the space, and the space. *)
Definition white (t : list ascii) : Prop := Forall (fun c => In (nat_of_ascii c) [9; 10; 11; 12; 13; 28; 29; 30; 31; 32]%nat) t.
(** Capital letters as small ones. *)
Definition small (c : ascii) : ascii :=
  match String.index 0 (String c "") "ABCDEFGHIJKLMNOPQRSTUVWXYZ" with
  | Some i => nth i (list_ascii_of_string "abcdefghijklmnopqrstuvwxyz") c
  | None => c
  end.
(** Every underscore stands between two digits. *)
Definition grouped (t : list ascii) : Prop :=
  forall a b, t = a ++ "_"%char :: b -> exists a' b' d d', a = a' ++ [d] /\ b = d' :: b' /\
    In d (list_ascii_of_string "0123456789") /\ In d' (list_ascii_of_string "0123456789").
Definition without_underscores (t : list ascii) : list ascii := filter (fun c => negb (Ascii.eqb c "_")) t.
