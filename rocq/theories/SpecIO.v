(** Notions used to state the file format properties. *)
From Coq Require Import Ascii String.
From Verif Require Import Py Num ModelIO.
Open Scope Z_scope.

(** Line feed and horizontal tab. *)
Definition newline : ascii := "010"%char.
Definition tab_char : ascii := "009"%char.

(** Lines joined into the text of a file. *)
Definition unlines (l : list text) : text := flat_map (fun t => t ++ [newline]) l.
(** Words separated by a character. *)
Fixpoint join (c : ascii) (l : list text) : text :=
  match l with
  | [] => []
  | [w] => w
  | w :: t => w ++ c :: join c t
  end.

(** Formatting yields non-empty words without blanks, parsing inverts it,
    rejects the empty string, and fails only by ValueError. *)
Record faithful {K : Num} (cd : codec K) : Prop := {
  fa_word : forall x, tc_fmt cd x <> [];
  fa_blank : forall x, Forall (fun c => blank c = false) (tc_fmt cd x);
  fa_inv : forall x, tc_parse cd (tc_fmt cd x) = Ok x;
  fa_empty : tc_parse cd [] = Err ValueError;
  fa_fail : forall s, (exists x, tc_parse cd s = Ok x) \/ tc_parse cd s = Err ValueError
}.

(** All files other than [name] are the same. *)
Definition others_same (name : text) (d d' : fs) : Prop :=
  (forall n, n <> name -> f_files d' n = f_files d n) /\ f_ropen d' = f_ropen d /\ f_wopen d' = f_wopen d.

(** The lines of a surface file; [ku_line], [kv_line] are the two knot lines. *)
Definition surface_layout {K : Num} (fmt : K -> text) (pu pv nku nkv : Z) (ku_line kv_line : text) (nu nv : Z)
  (P : list (K * K * K)) : list text :=
  [txt "Degree - p:"; fmt_int pu; txt "Degree - q:"; fmt_int pv;
   txt "Number of Knots in U"; fmt_int nku; txt "Number of Knots in V"; fmt_int nkv;
   txt "Knot Vector - U"; ku_line; txt "Knot Vector - V"; kv_line;
   txt "Number of Control Points in U"; fmt_int nu; txt "Number of Control Points in V"; fmt_int nv;
   txt "Control Points"]
  ++ map (fun q => fmt (fst (fst q)) ++ [tab_char; " "%char] ++ fmt (snd (fst q)) ++ [tab_char; " "%char] ++ fmt (snd q)) P.

(** The lines of a curve file. *)
Definition curve_layout {K : Num} (fmt : K -> text) (p nk : Z) (k_line : text) (n : Z) (P : list (K * K * K)) : list text :=
  [txt "Degree - p:"; fmt_int p; txt "Number of Knots"; fmt_int nk;
   txt "Knot Vector - U"; k_line; txt "Number of Control Points"; fmt_int n; txt "Control Points"]
  ++ map (fun q => fmt (fst (fst q)) ++ [tab_char; " "%char] ++ fmt (snd (fst q)) ++ [tab_char; " "%char] ++ fmt (snd q)) P.
Definition row3 {A : Type} (q : A * A * A) : list A := [fst (fst q); snd (fst q); snd q].
