(** A concrete codec for doubles: sign, mantissa and exponent in decimal
    (not Python's format; it shows that [faithful] can be met). *)
From Coq Require Import Ascii String Floats.
From Verif Require Import Py PyLemmas Num ModelIO SpecIO ProofIO.
Open Scope Z_scope.

Definition sf_text (x : spec_float) : text :=
  match x with
  | S754_zero s => if s then txt "-z" else txt "z"
  | S754_infinity s => if s then txt "-i" else txt "i"
  | S754_nan => txt "n"
  | S754_finite s m e => (if s then txt "-f" else txt "f") ++ fmt_int (Zpos m) ++ "p"%char :: fmt_int e
  end.
Definition finite_parse (s : bool) (t : text) : res Binary64 :=
  match split_on "p"%char t with
  | [a; b] => match py_int a, py_int b with
              | Ok (Zpos m), Ok e => Ok (SF2Prim (S754_finite s m e))
              | _, _ => Err ValueError
              end
  | _ => Err ValueError
  end.
Definition sf_parse (s : bool) (t : text) : res Binary64 :=
  match t with
  | c :: t' =>
      if ascii_dec c "z"%char then match t' with [] => Ok (SF2Prim (S754_zero s)) | _ => Err ValueError end
      else if ascii_dec c "i"%char then match t' with [] => Ok (SF2Prim (S754_infinity s)) | _ => Err ValueError end
      else if ascii_dec c "f"%char then finite_parse s t'
      else if ascii_dec c "n"%char then match t' with [] => Ok (SF2Prim S754_nan) | _ => Err ValueError end
      else Err ValueError
  | [] => Err ValueError
  end.
Definition b64_parse (t : text) : res Binary64 :=
  match t with
  | c :: t' => if ascii_dec c "-"%char then sf_parse true t' else sf_parse false t
  | [] => Err ValueError
  end.
Definition b64_codec : codec Binary64 := mkCodec (K := Binary64) (fun x => sf_text (Prim2SF x)) b64_parse.

Lemma digits_no_p u : ~ In "p"%char (txt (DecimalString.NilEmpty.string_of_uint u)).
Proof. unfold txt; induction u; cbn; [intros []|..]; intros [H|H]; try discriminate H; exact (IHu H). Qed.
Lemma fmt_int_no_p z : ~ In "p"%char (fmt_int z).
Proof.
  unfold fmt_int, txt, DecimalString.NilZero.string_of_int; destruct (Z.to_int z) as [u|u]; unfold DecimalString.NilZero.string_of_uint.
  - destruct u; try apply digits_no_p; cbn; intuition discriminate.
  - cbn [list_ascii_of_string]; intros [H|H]; [discriminate H|]; revert H; destruct u; try apply digits_no_p; cbn; intuition discriminate.
Qed.
Lemma finite_parse_fmt s m e : finite_parse s (fmt_int (Zpos m) ++ "p"%char :: fmt_int e) = Ok (SF2Prim (S754_finite s m e)).
Proof.
  unfold finite_parse; rewrite split_on_app by apply fmt_int_no_p; rewrite split_on_none by apply fmt_int_no_p.
  rewrite !py_int_fmt; reflexivity.
Qed.
Lemma sf_inv x : b64_parse (sf_text x) = Ok (SF2Prim x).
Proof.
  destruct x as [s|s| |s m e]; [destruct s; reflexivity|destruct s; reflexivity|reflexivity|].
  cbn [sf_text]; assert (F : forall t, b64_parse ((if s then txt "-f" else txt "f") ++ t) = finite_parse s t) by (intros t; destruct s; reflexivity).
  rewrite F; apply finite_parse_fmt.
Qed.
Lemma finite_parse_fail s t : (exists x, finite_parse s t = Ok x) \/ finite_parse s t = Err ValueError.
Proof.
  unfold finite_parse; destruct (split_on "p"%char t) as [|a [|b [|]]]; auto.
  assert (F : forall w, (exists x, py_int w = Ok x) \/ py_int w = Err ValueError).
  { intros w; unfold py_int; destruct (drop_underscores _ _) as [q|]; auto; destruct (read_sign q) as [neg r].
    destruct (read_digits r) as [[|d ds] [|c l]]; eauto. }
  destruct (F a) as [[x ->]| ->]; [|right; reflexivity]; destruct x; try (right; reflexivity); destruct (F b) as [[y ->]| ->]; eauto.
Qed.
Lemma sf_parse_fail s t : (exists x, sf_parse s t = Ok x) \/ sf_parse s t = Err ValueError.
Proof.
  destruct t as [|c t]; [right; reflexivity|]; cbn [sf_parse].
  destruct (ascii_dec c "z"%char); [destruct t; eauto|]; destruct (ascii_dec c "i"%char); [destruct t; eauto|].
  destruct (ascii_dec c "f"%char); [apply finite_parse_fail|]; destruct (ascii_dec c "n"%char); [destruct t; eauto|auto].
Qed.
Lemma b64_faithful : faithful b64_codec.
Proof.
  split; cbn [b64_codec tc_fmt tc_parse].
  - intros x; destruct (Prim2SF x) as [[]|[]| |[] m e]; discriminate.
  - intros x; destruct (Prim2SF x) as [[]|[]| |[] m e]; cbn [sf_text]; [| | | | | |];
      try (apply Forall_app; split; [repeat constructor|apply Forall_app; split; [apply int_solid|constructor; [reflexivity|apply int_solid]]]); repeat constructor.
  - intros x; rewrite sf_inv; exact (f_equal Ok (SF2Prim_Prim2SF x)).
  - reflexivity.
  - intros s; destruct s as [|c t]; [right; reflexivity|]; cbn [b64_parse]; destruct (ascii_dec c "-"%char); apply sf_parse_fail.
Qed.
