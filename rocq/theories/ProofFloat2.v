(** Parsing and formatting of doubles: the text (model: ModelFloat.v). *)
From Coq Require Import Reals Lra Lia ZArith List Floats Ascii String.
From Flocq Require Import Core.Core.
From Verif Require Import Py Num ModelIO ModelFloat SpecIO SpecB64 SpecFloatText ProofIO ProofB64 ProofFloat.
Import ListNotations.
Open Scope Z_scope.

Lemma chars_digit d : 0 <= d <= 9 -> char_digit (nth (Z.to_nat d) (list_ascii_of_string "0123456789") "?"%char) = Some d.
Proof. intros H; assert (C : d = 0 \/ d = 1 \/ d = 2 \/ d = 3 \/ d = 4 \/ d = 5 \/ d = 6 \/ d = 7 \/ d = 8 \/ d = 9) by lia; intuition subst; reflexivity. Qed.
Lemma chars_app a b : chars (a ++ b) = chars a ++ chars b. Proof. apply map_app. Qed.
Definition stops (r : text) : Prop := match r with [] => True | c :: _ => char_digit c = None end.
Lemma read_digits_chars ds r : decimal_digits ds -> stops r -> read_digits (chars ds ++ r) = (ds, r).
Proof.
  intros D; revert r; induction D as [|d ds Hd _ IH]; intros r S; cbn [chars map app read_digits].
  - destruct r as [|c r]; [reflexivity|]; cbn in *; rewrite S; reflexivity.
  - rewrite (chars_digit d Hd); fold (chars ds); rewrite IH by exact S; reflexivity.
Qed.
Lemma number_acc ds : forall a, fold_left (fun a d => 10 * a + d) ds a = a * 10 ^ Z.of_nat (List.length ds) + positional ds.
Proof.
  induction ds as [|d ds IH]; intros a; cbn [fold_left positional List.length]; [cbn; lia|].
  rewrite IH, Nat2Z.inj_succ, Z.pow_succ_r by lia; ring.
Qed.
Lemma number_positional ds : number ds = positional ds.
Proof. unfold number; rewrite number_acc; lia. Qed.
Lemma positional_app a b : positional (a ++ b) = positional a * 10 ^ Z.of_nat (List.length b) + positional b.
Proof. rewrite <- !number_positional; unfold number; rewrite fold_left_app, !number_acc; lia. Qed.
Lemma positional_nonneg ds : decimal_digits ds -> 0 <= positional ds.
Proof. induction 1 as [|d ds H _ IH]; cbn; [lia|]; pose proof (Z.pow_nonneg 10 (Z.of_nat (List.length ds)) ltac:(lia)); nia. Qed.
Lemma read_sign_text sg c t : is_digit c = true \/ c = "."%char \/ c = "i"%char \/ c = "n"%char -> read_sign (sign_text sg ++ c :: t) = (minus sg, c :: t).
Proof.
  intros H; destruct sg as [[]|]; [reflexivity|reflexivity|]; cbn [sign_text app read_sign minus].
  destruct (ascii_dec c "-") as [->|_]; [destruct H as [H|[H|[H|H]]]; discriminate|]; destruct (ascii_dec c "+") as [->|_]; [destruct H as [H|[H|[H|H]]]; discriminate|]; reflexivity.
Qed.
Lemma chars_head d ds : decimal_digits (d :: ds) -> exists c t, chars (d :: ds) = c :: t /\ is_digit c = true.
Proof. intros D; inversion D; subst; eexists; eexists; split; [reflexivity|]; unfold is_digit; rewrite chars_digit by assumption; reflexivity. Qed.
Lemma read_exponent_literal (ex : option (option bool * list Z)) : match ex with Some (_, d) => decimal_digits d /\ d <> [] | None => True end ->
  read_exponent (match ex with Some (esg, d) => "e"%char :: sign_text esg ++ chars d | None => [] end) = Some (exponent_value ex).
Proof.
  destruct ex as [[esg d]|]; [|reflexivity]; intros [D N].
  cbn [read_exponent]; destruct (ascii_dec "e" "e") as [_|C]; [|congruence].
  destruct d as [|x d]; [congruence|]; destruct (chars_head x d D) as (c & t & Ec & Hc); rewrite Ec, read_sign_text by (left; exact Hc); rewrite <- Ec.
  rewrite <- (app_nil_r (chars (x :: d))), read_digits_chars by (exact D || exact I); rewrite !number_positional; reflexivity.
Qed.
Lemma read_decimal_literal ip fp ex : well_formed ip fp ex ->
  read_decimal (literal None ip fp ex) = Some (positional (ip ++ fraction_digits fp), exponent_value ex - Z.of_nat (List.length (fraction_digits fp))).
Proof.
  intros (D1 & D2 & N & E); unfold read_decimal, literal; cbn [sign_text app].
  set (X := match ex with Some (esg, d) => "e"%char :: sign_text esg ++ chars d | None => [] end).
  assert (SX : stops X) by (unfold X; destruct ex as [[esg d]|]; cbn; exact I || reflexivity).
  assert (EX : read_exponent X = Some (exponent_value ex)) by (apply read_exponent_literal; exact E).
  destruct fp as [f|]; cbn [fraction_digits app] in *.
  - rewrite read_digits_chars by (exact D1 || reflexivity); destruct (ascii_dec "." ".") as [_|C]; [|congruence].
    rewrite read_digits_chars by assumption; rewrite EX; destruct (ip ++ f) eqn:Q; [congruence|]; rewrite number_positional; reflexivity.
  - rewrite read_digits_chars by assumption; rewrite app_nil_r in *.
    assert (NX : match X with c :: _ => c <> "."%char | [] => True end) by (unfold X; destruct ex as [[esg d]|]; discriminate || exact I).
    assert (G : forall Y, Y = ([], X) -> (let (fp, s2) := Y in match ip ++ fp with [] => None | ds => match read_exponent s2 with Some e => Some (number ds, e - zlen fp) | None => None end end) = Some (positional ip, exponent_value ex - Z.of_nat (@List.length Z []))).
    { intros Y ->; rewrite EX, app_nil_r; destruct ip; [congruence|]; rewrite number_positional; reflexivity. }
    apply G; destruct X as [|c t]; [reflexivity|]; destruct (ascii_dec c "."); [contradiction|reflexivity].
Qed.
(** the characters of literals *)
Definition plain_char (c : ascii) : Prop := In c (list_ascii_of_string "0123456789.e+-").
Lemma plain_spec c : plain_char c -> blank c = false /\ c <> "_"%char /\ lower c = c.
Proof. unfold plain_char; cbn [list_ascii_of_string In]; intros H; repeat (destruct H as [<-|H]; [split; [reflexivity|split; [discriminate|reflexivity]]|]); destruct H. Qed.
Lemma plain_chars ds : decimal_digits ds -> Forall plain_char (chars ds).
Proof.
  induction 1 as [|d ds H _ IH]; cbn [chars map]; constructor; [|exact IH].
  assert (C : d = 0 \/ d = 1 \/ d = 2 \/ d = 3 \/ d = 4 \/ d = 5 \/ d = 6 \/ d = 7 \/ d = 8 \/ d = 9) by lia; unfold plain_char; intuition subst; cbn; tauto.
Qed.
Lemma plain_literal sg ip fp ex : well_formed ip fp ex -> Forall plain_char (literal sg ip fp ex).
Proof.
  intros (D1 & D2 & _ & E); unfold literal; repeat (apply Forall_app; split).
  - destruct sg as [[]|]; repeat constructor; cbn; tauto.
  - apply plain_chars; exact D1.
  - destruct fp; constructor; [cbn; tauto|apply plain_chars; exact D2].
  - destruct ex as [[esg d]|]; constructor; [cbn; tauto|]; apply Forall_app; split; [destruct esg as [[]|]; repeat constructor; cbn; tauto|apply plain_chars, E].
Qed.
Lemma plain_lower w : Forall plain_char w -> map lower w = w.
Proof. induction 1 as [|c w H _ IH]; [reflexivity|]; cbn [map]; rewrite IH; f_equal; apply plain_spec; exact H. Qed.
Lemma unsigned_head ip fp ex : well_formed ip fp ex -> exists c t, literal None ip fp ex = c :: t /\ (is_digit c = true \/ c = "."%char).
Proof.
  intros (D1 & D2 & N & _); unfold literal; cbn [sign_text app]; destruct ip as [|d ip].
  - destruct fp as [[|f fp]|]; cbn in N; try congruence; cbn [chars map app]; eexists; eexists; split; [reflexivity|right; reflexivity].
  - cbn [chars map app]; eexists; eexists; split; [reflexivity|left]; inversion D1; subst; unfold is_digit; rewrite chars_digit by assumption; reflexivity.
Qed.
Lemma text_eqb_false a b : a <> b -> text_eqb a b = false.
Proof. intros H; unfold text_eqb; destruct (list_eq_dec ascii_dec a b); [congruence|reflexivity]. Qed.
Lemma py_float_literal sg ip fp ex : well_formed ip fp ex ->
  py_float (literal sg ip fp ex) = Ok (nearest (minus sg) (positional (ip ++ fraction_digits fp)) (exponent_value ex - Z.of_nat (List.length (fraction_digits fp)))).
Proof.
  intros W; pose proof (plain_literal sg ip fp ex W) as P; unfold py_float.
  rewrite strip_solid, no_underscore, plain_lower by first [exact P | eapply Forall_impl; [|exact P]; intros c H; apply plain_spec in H; tauto].
  destruct (unsigned_head ip fp ex W) as (c & t & E & H).
  assert (RS : read_sign (literal sg ip fp ex) = (minus sg, literal None ip fp ex)).
  { change (literal sg ip fp ex) with (sign_text sg ++ literal None ip fp ex); rewrite E; apply read_sign_text; tauto. }
  rewrite RS.
  rewrite !text_eqb_false by (rewrite E; cbn; intros Q; injection Q as -> _; destruct H; discriminate); cbn [orb].
  rewrite read_decimal_literal by exact W; reflexivity.
Qed.

(** ** formatting *)
Lemma digits_chars : forall n c, 0 <= c -> exists ds, digits n c = chars ds /\ decimal_digits ds /\ List.length ds = n /\ positional ds = c mod 10 ^ Z.of_nat n.
Proof.
  induction n as [|n IH]; intros c Hc; cbn [digits].
  - exists []; split; [reflexivity|split; [constructor|split; [reflexivity|]]]; cbn; rewrite Z.mod_1_r; reflexivity.
  - destruct (IH (c / 10) ltac:(apply Z.div_pos; lia)) as (ds & E & D & L & P); pose proof (Z.mod_pos_bound c 10 ltac:(lia)) as B.
    exists (ds ++ [c mod 10]); rewrite E, chars_app; split; [f_equal; cbn [chars map]; f_equal|split; [|split]].
    + assert (C : c mod 10 = 0 \/ c mod 10 = 1 \/ c mod 10 = 2 \/ c mod 10 = 3 \/ c mod 10 = 4 \/ c mod 10 = 5 \/ c mod 10 = 6 \/ c mod 10 = 7 \/ c mod 10 = 8 \/ c mod 10 = 9) by lia.
      repeat (destruct C as [->|C]; [reflexivity|]); rewrite C; reflexivity.
    + apply Forall_app; split; [exact D|repeat constructor; lia].
    + rewrite app_length, L; cbn; lia.
    + rewrite positional_app, P; cbn [positional List.length]; change (Z.of_nat 1) with 1; change (Z.of_nat 0) with 0.
      rewrite Nat2Z.inj_succ, Z.pow_succ_r, (Z.rem_mul_r c 10) by lia; lia.
Qed.
Lemma chars_zeros n : repeat "0"%char n = chars (repeat 0 n).
Proof. induction n as [|n IH]; [reflexivity|]; cbn; f_equal; exact IH. Qed.
Lemma digits_zeros n : decimal_digits (repeat 0 n).
Proof. induction n; constructor; [lia|assumption]. Qed.
Lemma positional_zeros n ds : positional (repeat 0 n ++ ds) = positional ds.
Proof. induction n as [|n IH]; [reflexivity|]; cbn; rewrite IH; reflexivity. Qed.
Lemma zeros_positional n : positional (repeat 0 n) = 0.
Proof. induction n as [|n IH]; [reflexivity|]; cbn; rewrite IH; reflexivity. Qed.
Lemma last_app2 (a b : list Z) : b <> [] -> last (a ++ b) 0 = last b 0.
Proof. intros H; induction a as [|x a IH]; [reflexivity|]; cbn [app]; destruct (a ++ b) eqn:E; [destruct a, b; discriminate || congruence|]; cbn [last]; rewrite <- IH; reflexivity. Qed.
Lemma positional_bound (ds : list Z) : decimal_digits ds -> positional ds < 10 ^ Z.of_nat (List.length ds).
Proof.
  induction 1 as [|d ds Hd _ IH]; [cbn; lia|]; cbn [positional List.length]; rewrite Nat2Z.inj_succ, Z.pow_succ_r by lia; nia.
Qed.
Lemma positional_head (ds : list Z) : decimal_digits ds -> ds <> [] -> hd 0 ds = 0 -> positional ds < 10 ^ (Z.of_nat (List.length ds) - 1).
Proof.
  intros D N H; destruct D as [|d ds Hd D]; [congruence|]; cbn [hd] in H; subst d; cbn [positional]; rewrite Z.mul_0_l, Z.add_0_l; cbn [List.length].
  replace (Z.of_nat (S (List.length ds)) - 1) with (Z.of_nat (List.length ds)) by lia; apply positional_bound; exact D.
Qed.
Lemma positional_last (ds : list Z) : decimal_digits ds -> positional ds mod 10 = last ds 0.
Proof.
  intros D; destruct ds as [|d ds]; [reflexivity|]; rewrite (app_removelast_last 0 (l := d :: ds)) at 1 by discriminate.
  rewrite positional_app; cbn [positional List.length]; change (Z.of_nat 0) with 0; change (Z.of_nat 1) with 1; rewrite Z.pow_1_r, Z.pow_0_r, Z.add_0_r, Z.mul_1_r, Z.add_comm, Z.mod_add by lia.
  apply Z.mod_small; assert (In (last (d :: ds) 0) (d :: ds)) by (rewrite (app_removelast_last 0 (l := d :: ds)) at 2 by discriminate; apply in_or_app; right; left; reflexivity).
  unfold decimal_digits in D; rewrite Forall_forall in D; specialize (D _ H); lia.
Qed.
(** The laid out digits are a literal of the same number; an exponent is written
    unless the point position is between -3 and 16. *)
Lemma layout_literal ds j : decimal_digits ds -> ds <> [] -> -999 <= j - 1 <= 999 ->
  exists ip fp ex t, layout (chars ds) j = literal None ip fp ex /\ well_formed ip fp ex /\ 0 <= t /\
    positional (ip ++ fraction_digits fp) = positional ds * 10 ^ t /\
    exponent_value ex - Z.of_nat (List.length (fraction_digits fp)) = j - Z.of_nat (List.length ds) - t /\
    (ex = None <-> -4 < j <= 16) /\ (1 <= List.length ip)%nat /\ (ex = None -> fp <> None /\ fraction_digits fp <> []) /\
    (hd 0 ds <> 0 -> last ds 0 <> 0 -> usual ip fp ex).
Proof.
  intros D N Hj; assert (LC : List.length (chars ds) = List.length ds) by apply map_length.
  assert (Lp : (1 <= List.length ds)%nat) by (destruct ds; cbn; [congruence|lia]).
  unfold layout, zlen; rewrite LC; destruct ((-4 <? j) && (j <=? 16))%bool eqn:R.
  - apply andb_prop in R; destruct R as [R1 R2]; apply Z.ltb_lt in R1; apply Z.leb_le in R2.
    destruct (Z.leb_spec j 0) as [J|J]; [|destruct (Z.leb_spec (Z.of_nat (List.length ds)) j) as [J2|J2]].
    + exists [0], (Some (repeat 0 (Z.to_nat (- j)) ++ ds)), None, 0.
      split; [unfold literal; cbn [sign_text app]; rewrite chars_app, chars_zeros, app_nil_r; reflexivity|].
      split; [split; [repeat constructor; lia|split; [cbn; apply Forall_app; split; [apply digits_zeros|exact D]|split; [discriminate|exact I]]]|].
      split; [lia|]; cbn [fraction_digits app exponent_value]; split; [change (0 :: repeat 0 (Z.to_nat (- j)) ++ ds) with (repeat 0 (S (Z.to_nat (- j))) ++ ds); rewrite positional_zeros; lia|].
      split; [rewrite app_length, repeat_length; lia|split; [split; [lia|reflexivity]|split; [cbn; lia|split; [intros _; split; [discriminate|destruct ds; [congruence|]; destruct (repeat 0 (Z.to_nat (- j))); discriminate]|]]]].
      intros _ La; cbn [usual fraction_digits]; split; [left; reflexivity|right; rewrite last_app2 by exact N; exact La].
    + exists (ds ++ repeat 0 (Z.to_nat (j - Z.of_nat (List.length ds)))), (Some [0]), None, (j - Z.of_nat (List.length ds) + 1).
      split; [unfold literal; cbn [sign_text app]; rewrite chars_app, chars_zeros, app_nil_r, <- app_assoc; reflexivity|].
      split; [split; [apply Forall_app; split; [exact D|apply digits_zeros]|split; [cbn; repeat constructor; lia|split; [destruct ds; [congruence|discriminate]|exact I]]]|].
      split; [lia|]; cbn [fraction_digits exponent_value]; split.
      { rewrite !positional_app, zeros_positional, repeat_length; cbn [positional List.length]; rewrite Z2Nat.id by lia; change (Z.of_nat 1) with 1; change (Z.of_nat 0) with 0.
        rewrite Z.pow_add_r by lia; ring. }
      split; [cbn; lia|split; [split; [lia|reflexivity]|split; [rewrite app_length; lia|split; [intros _; split; discriminate|]]]].
      intros He _; cbn [usual fraction_digits]; split; [right; destruct ds; [congruence|exact He]|left; reflexivity].
    + exists (firstn (Z.to_nat j) ds), (Some (skipn (Z.to_nat j) ds)), None, 0.
      assert (LS : List.length (skipn (Z.to_nat j) ds) = (List.length ds - Z.to_nat j)%nat) by apply skipn_length.
      split; [unfold literal, chars; cbn [sign_text app]; rewrite firstn_map, skipn_map, app_nil_r; reflexivity|].
      assert (DD : decimal_digits (firstn (Z.to_nat j) ds) /\ decimal_digits (skipn (Z.to_nat j) ds)) by (apply Forall_app; rewrite firstn_skipn; exact D); destruct DD as [Da Db].
      assert (LF : List.length (firstn (Z.to_nat j) ds) = Z.to_nat j) by (rewrite firstn_length; lia).
      split; [split; [exact Da|split; [exact Db|split; [cbn [fraction_digits]; rewrite firstn_skipn; exact N|exact I]]]|].
      split; [lia|]; cbn [fraction_digits exponent_value]; rewrite firstn_skipn; split; [lia|].
      split; [lia|split; [split; [lia|reflexivity]|split; [lia|split; [intros _; split; [discriminate|intros C; rewrite C in LS; cbn in LS; lia]|]]]].
      intros He La; cbn [usual fraction_digits]; split; right.
      * destruct ds as [|d ds]; [congruence|]; destruct (Z.to_nat j) eqn:Q; [lia|exact He].
      * rewrite <- (firstn_skipn (Z.to_nat j) ds), last_app2 in La by (intros C; rewrite C in LS; cbn in LS; lia); exact La.
  - destruct ds as [|d ds]; [congruence|]; inversion D as [|d0 ds0 D1 D2]; subst; set (w := if Z.abs (j - 1) <? 100 then 2%nat else 3%nat).
    destruct (digits_chars w (Z.abs (j - 1)) ltac:(lia)) as (es & Ee & De & Le & Pe).
    assert (PE : positional es = Z.abs (j - 1)).
    { rewrite Pe; apply Z.mod_small; split; [lia|]; unfold w; destruct (Z.ltb_spec (Z.abs (j - 1)) 100); [exact H|]; change (10 ^ Z.of_nat 3) with 1000; lia. }
    assert (EE : (if Z.abs (j - 1) <? 100 return list ascii then digits 2 (Z.abs (j - 1)) else digits 3 (Z.abs (j - 1))) = chars es) by (rewrite <- Ee; unfold w; cbv zeta; destruct (Z.abs (j - 1) <? 100); reflexivity).
    assert (NE : es <> []) by (intros ->; unfold w in Le; destruct (Z.abs (j - 1) <? 100); discriminate).
    exists [d], (match ds with [] => None | _ => Some ds end), (Some (Some (j - 1 <? 0), es)), 0.
    assert (FD : fraction_digits (match ds with [] => None | _ => Some ds end) = ds) by (destruct ds; reflexivity).
    cbv zeta in EE |- *; rewrite EE; split; [unfold literal; cbn [sign_text chars map firstn skipn app]; destruct ds, (j - 1 <? 0); reflexivity|].
    split; [split; [repeat constructor; lia|rewrite FD; split; [exact D2|split; [discriminate|split; [exact De|exact NE]]]]|].
    split; [lia|]; rewrite FD; split; [cbn [app]; lia|]; split.
    { cbn [exponent_value minus List.length]; rewrite PE; destruct (Z.ltb_spec (j - 1) 0); lia. }
    split; [split; [discriminate|]|split; [cbn; lia|split; [discriminate|]]].
    2: { intros He La; cbn [usual hd List.length]; rewrite FD; split; [reflexivity|split; [exact He|split; [|split; [discriminate|]]]].
      - destruct ds as [|d' ds']; [left; reflexivity|right; exact La].
      - rewrite Le; unfold w; destruct (Z.ltb_spec (Z.abs (j - 1)) 100) as [B|B]; [left; reflexivity|right; split; [lia|]].
        intros C; pose proof (positional_head es De NE C) as PH; rewrite Le, PE in PH; unfold w in PH; destruct (Z.ltb_spec (Z.abs (j - 1)) 100); [lia|]; change (10 ^ (Z.of_nat 3 - 1)) with 100 in PH; lia. }
    intros [A B]; exfalso; apply Bool.andb_false_iff in R; destruct R as [R|R]; [apply Z.ltb_ge in R|apply Z.leb_gt in R]; lia.
Qed.
