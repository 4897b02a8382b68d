(** What float() accepts (model: ModelFloat.v). *)
From Coq Require Import Reals Lra Lia ZArith List Floats Ascii String Bool.
From Flocq Require Import Core.Core.
From Verif Require Import Py Num ModelIO ModelFloat SpecIO SpecB64 SpecFloatText ProofIO ProofB64 ProofFloat ProofFloat2 ProofFloat3.
Import ListNotations.
Open Scope Z_scope.

Lemma all_ascii (f : ascii -> bool) : forallb f (map ascii_of_nat (seq 0 256)) = true -> forall c, f c = true.
Proof.
  intros H c; rewrite forallb_forall in H; apply H; apply in_map_iff; exists (nat_of_ascii c); split; [apply ascii_nat_embedding|].
  apply in_seq; pose proof (nat_ascii_bounded c); lia.
Qed.
Lemma lower_small c : lower c = small c.
Proof. apply Ascii.eqb_eq; revert c; apply (all_ascii (fun c => Ascii.eqb (lower c) (small c))); vm_compute; reflexivity. Qed.
Lemma map_lower w : map lower w = map small w.
Proof. apply map_ext; exact lower_small. Qed.
Lemma small_blank c : blank (small c) = blank c.
Proof. apply Bool.eqb_prop; revert c; apply (all_ascii (fun c => Bool.eqb (blank (small c)) (blank c))); vm_compute; reflexivity. Qed.
Lemma char_digit_inv c d : char_digit c = Some d -> 0 <= d <= 9 /\ c = nth (Z.to_nat d) (list_ascii_of_string "0123456789") "?"%char.
Proof.
  pose proof (all_ascii (fun c => match char_digit c with Some d => (0 <=? d) && (d <=? 9) && Ascii.eqb c (nth (Z.to_nat d) (list_ascii_of_string "0123456789") "?"%char) | None => true end) ltac:(vm_compute; reflexivity) c) as H.
  intros E; cbv beta in H; rewrite E in H; apply andb_prop in H; destruct H as [H H3]; apply andb_prop in H; destruct H as [H1 H2]; apply Z.leb_le in H1, H2; apply Ascii.eqb_eq in H3; split; [lia|exact H3].
Qed.
Lemma is_digit_iff c : is_digit c = true <-> In c (list_ascii_of_string "0123456789").
Proof.
  unfold is_digit; split.
  - destruct (char_digit c) as [d|] eqn:E; [|discriminate]; intros _; apply char_digit_inv in E; destruct E as [H ->]; apply nth_In; cbn; lia.
  - intros H; cbn in H; repeat (destruct H as [<-|H]; [reflexivity|]); destruct H.
Qed.
Lemma read_digits_inv s : forall ds r, read_digits s = (ds, r) -> s = chars ds ++ r /\ decimal_digits ds /\ stops r.
Proof.
  induction s as [|c s IH]; intros ds r H; cbn [read_digits] in H.
  - injection H as <- <-; split; [reflexivity|split; [constructor|exact I]].
  - destruct (char_digit c) as [d|] eqn:E.
    + destruct (read_digits s) as [ds' r'] eqn:R; injection H as <- <-; destruct (IH _ _ eq_refl) as (-> & D & S); apply char_digit_inv in E; destruct E as [Hd ->].
      split; [reflexivity|split; [constructor; assumption|exact S]].
    + injection H as <- <-; split; [reflexivity|split; [constructor|exact E]].
Qed.
Lemma read_sign_inv s neg r : read_sign s = (neg, r) -> exists sg, s = sign_text sg ++ r /\ neg = minus sg.
Proof.
  destruct s as [|c s]; cbn [read_sign]; [intros H; injection H as <- <-; exists None; split; reflexivity|].
  destruct (ascii_dec c "-") as [->|_]; [intros H; injection H as <- <-; exists (Some true); split; reflexivity|].
  destruct (ascii_dec c "+") as [->|_]; intros H; injection H as <- <-; [exists (Some false)|exists None]; split; reflexivity.
Qed.
Lemma read_exponent_inv s e : read_exponent s = Some e -> exists ex, s = (match ex with Some (esg, d) => "e"%char :: sign_text esg ++ chars d | None => [] end) /\
  match ex with Some (_, d) => decimal_digits d /\ d <> [] | None => True end.
Proof.
  destruct s as [|c s]; cbn [read_exponent]; [intros _; exists None; split; [reflexivity|exact I]|].
  destruct (ascii_dec c "e") as [->|_]; [|discriminate]; destruct (read_sign s) as [neg r] eqn:RS; destruct (read_digits r) as [[|d ds] [|c' r']] eqn:RD; try discriminate.
  intros _; destruct (read_sign_inv _ _ _ RS) as (sg & -> & _); destruct (read_digits_inv _ _ _ RD) as (-> & D & _).
  exists (Some (sg, d :: ds)); rewrite app_nil_r; split; [reflexivity|split; [exact D|discriminate]].
Qed.
Lemma read_decimal_inv s m k : read_decimal s = Some (m, k) -> exists ip fp ex, s = literal None ip fp ex /\ well_formed ip fp ex.
Proof.
  unfold read_decimal; destruct (read_digits s) as [ip s1] eqn:R1; destruct (read_digits_inv _ _ _ R1) as (-> & D1 & S1).
  assert (G : forall fo s2, decimal_digits (fraction_digits fo) -> s1 = (match fo with Some f => "."%char :: chars f | None => [] end) ++ s2 ->
    match ip ++ fraction_digits fo with [] => None | ds => match read_exponent s2 with Some e => Some (number ds, e - zlen (fraction_digits fo)) | None => None end end = Some (m, k) ->
    exists ip' fp ex, chars ip ++ s1 = literal None ip' fp ex /\ well_formed ip' fp ex).
  { intros fo s2 Df -> H; destruct (ip ++ fraction_digits fo) as [|d0 l0] eqn:Q; [discriminate|]; destruct (read_exponent s2) as [e|] eqn:RE; [|discriminate].
    destruct (read_exponent_inv _ _ RE) as (ex & -> & Wx); exists ip, fo, ex; split; [reflexivity|split; [exact D1|split; [exact Df|split; [rewrite Q; discriminate|exact Wx]]]]. }
  destruct s1 as [|c t].
  - intros H; apply (G None []); [constructor|reflexivity|exact H].
  - destruct (ascii_dec c ".") as [->|_].
    + destruct (read_digits t) as [f s2] eqn:R2; destruct (read_digits_inv _ _ _ R2) as (-> & D2 & _); intros H; apply (G (Some f) s2); [exact D2|reflexivity|exact H].
    + intros H; apply (G None (c :: t)); [constructor|reflexivity|exact H].
Qed.
(** blanks around the text *)
Lemma blank_codes c : blank c = true <-> In (nat_of_ascii c) [9; 10; 11; 12; 13; 28; 29; 30; 31; 32]%nat.
Proof.
  unfold blank; rewrite Bool.orb_true_iff, !Bool.andb_true_iff, !Nat.leb_le; cbn [In]; split; [|intuition lia].
  generalize (nat_of_ascii c); intros n H; lia.
Qed.
Lemma white_blank a : white a <-> Forall (fun c => blank c = true) a.
Proof. unfold white; split; intros H; eapply Forall_impl; try exact H; intros c; apply blank_codes. Qed.
Definition blanks (a : text) : Prop := Forall (fun c => blank c = true) a.
Lemma lstrip_parts t : exists a, t = a ++ lstrip t /\ blanks a /\ match lstrip t with [] => True | c :: _ => blank c = false end.
Proof.
  induction t as [|c t (a & E & B & H)]; [exists []; split; [reflexivity|split; [constructor|exact I]]|]; cbn [lstrip]; destruct (blank c) eqn:Q.
  - exists (c :: a); split; [cbn; f_equal; exact E|split; [constructor; assumption|exact H]].
  - exists []; split; [reflexivity|split; [constructor|exact Q]].
Qed.
Lemma blanks_rev a : blanks a -> blanks (rev a).
Proof. intros H; apply Forall_rev; exact H. Qed.
Definition tight (w : text) : Prop := match w with [] => True | c :: _ => blank c = false end /\ match rev w with [] => True | c :: _ => blank c = false end.
Lemma strip_parts t : exists a b, t = a ++ strip t ++ b /\ blanks a /\ blanks b /\ tight (strip t).
Proof.
  destruct (lstrip_parts t) as (a & E & A & H); destruct (lstrip_parts (rev (lstrip t))) as (b & E2 & B & H2).
  assert (E3 : lstrip t = strip t ++ rev b) by (unfold strip; rewrite <- rev_app_distr, <- E2, rev_involutive; reflexivity).
  exists a, (rev b); split; [rewrite <- E3; exact E|split; [exact A|split; [apply blanks_rev; exact B|split]]].
  - rewrite E3 in H; destruct (strip t) as [|c w]; [exact I|exact H].
  - unfold strip; rewrite rev_involutive; exact H2.
Qed.
Lemma strip_tight a w b : blanks a -> blanks b -> tight w -> strip (a ++ w ++ b) = w.
Proof.
  intros A B [H1 H2]; unfold strip; rewrite lstrip_blanks by exact A.
  destruct w as [|c w].
  - cbn [app]; rewrite <- (app_nil_r b), lstrip_blanks by exact B; reflexivity.
  - assert (E1 : lstrip ((c :: w) ++ b) = (c :: w) ++ b) by (cbn [app lstrip]; rewrite H1; reflexivity); rewrite E1, rev_app_distr, lstrip_blanks by (apply blanks_rev; exact B).
    assert (E2 : lstrip (rev (c :: w)) = rev (c :: w)) by (destruct (rev (c :: w)) as [|x r]; [reflexivity|]; cbn [lstrip]; rewrite H2; reflexivity); rewrite E2; apply rev_involutive.
Qed.
Lemma solid_tight w : Forall (fun c => blank c = false) w -> tight w.
Proof.
  intros H; split; [destruct H; [exact I|assumption]|]; pose proof (Forall_rev H) as R; destruct R; [exact I|assumption].
Qed.
Lemma small_plain w v : map small w = v -> Forall (fun c => blank c = false /\ c <> "_"%char) v -> Forall (fun c => blank c = false) w /\ Forall (fun c => c <> "_"%char) w.
Proof.
  intros <- H; rewrite Forall_map in H; split; eapply Forall_impl; try exact H; cbn; intros c [H1 H2].
  - rewrite <- small_blank; exact H1.
  - intros ->; apply H2; reflexivity.
Qed.
Lemma py_float_solid a w b v : blanks a -> blanks b -> map small w = v -> Forall (fun c => blank c = false /\ c <> "_"%char) v ->
  py_float (a ++ w ++ b) = (let (neg, r) := read_sign v in
      if text_eqb r (txt "inf") || text_eqb r (txt "infinity") then Ok (if neg then PrimFloat.neg_infinity else PrimFloat.infinity)
      else if text_eqb r (txt "nan") then Ok PrimFloat.nan
      else match read_decimal r with Some (m, k) => Ok (nearest neg m k) | None => Err ValueError end).
Proof.
  intros A B E H; destruct (small_plain w v E H) as [W1 W2]; unfold py_float; rewrite strip_tight by (assumption || apply solid_tight; exact W1).
  rewrite no_underscore by exact W2; rewrite map_lower, E; reflexivity.
Qed.
Lemma py_float_number a w b sg ip fp ex : blanks a -> blanks b -> well_formed ip fp ex -> map small w = literal sg ip fp ex ->
  py_float (a ++ w ++ b) = Ok (nearest (minus sg) (positional (ip ++ fraction_digits fp)) (exponent_value ex - Z.of_nat (List.length (fraction_digits fp)))).
Proof.
  intros A B W E; assert (P : Forall (fun c => blank c = false /\ c <> "_"%char) (literal sg ip fp ex)) by (eapply Forall_impl; [|apply plain_literal; exact W]; intros c H; apply plain_spec in H; tauto).
  rewrite (py_float_solid a w b _ A B E P), <- (py_float_literal sg ip fp ex W).
  rewrite <- (app_nil_l (literal sg ip fp ex)) at 2; rewrite <- (app_nil_r (literal sg ip fp ex)) at 2; symmetry; apply py_float_solid; [constructor|constructor| |exact P].
  rewrite <- map_lower; apply plain_lower, plain_literal; exact W.
Qed.
Lemma py_float_inf a w b sg t : blanks a -> blanks b -> t = txt "inf" \/ t = txt "infinity" -> map small w = sign_text sg ++ t -> py_float (a ++ w ++ b) = Ok (if minus sg then PrimFloat.neg_infinity else PrimFloat.infinity).
Proof.
  intros A B T E; rewrite (py_float_solid a w b _ A B E); [|destruct T as [-> | ->], sg as [[]|]; repeat constructor; discriminate].
  destruct T as [-> | ->]; destruct sg as [[]|]; reflexivity.
Qed.
Lemma py_float_nan a w b sg : blanks a -> blanks b -> map small w = sign_text sg ++ txt "nan" -> py_float (a ++ w ++ b) = Ok PrimFloat.nan.
Proof.
  intros A B E; rewrite (py_float_solid a w b _ A B E); [|destruct sg as [[]|]; repeat constructor; discriminate]; destruct sg as [[]|]; reflexivity.
Qed.
Lemma text_eqb_true a b : text_eqb a b = true -> a = b.
Proof. unfold text_eqb; destruct (list_eq_dec ascii_dec a b); [auto|discriminate]. Qed.
Lemma py_float_accepts t y : ~ In "_"%char t -> py_float t = Ok y -> exists a w b sg, t = a ++ w ++ b /\ blanks a /\ blanks b /\
  (map small w = sign_text sg ++ txt "inf" \/ map small w = sign_text sg ++ txt "infinity" \/ map small w = sign_text sg ++ txt "nan" \/
   exists ip fp ex, well_formed ip fp ex /\ map small w = literal sg ip fp ex).
Proof.
  intros NU; destruct (strip_parts t) as (a & b & E & A & B & _); unfold py_float; set (w := strip t) in *.
  rewrite no_underscore by (apply Forall_forall; intros c Hc ->; apply NU; rewrite E; apply in_or_app; right; apply in_or_app; left; exact Hc).
  rewrite map_lower; destruct (read_sign (map small w)) as [neg r] eqn:RS; destruct (read_sign_inv _ _ _ RS) as (sg & ES & _); intros H; exists a, w, b, sg.
  split; [exact E|split; [exact A|split; [exact B|]]]; rewrite ES.
  destruct (text_eqb r (txt "inf")) eqn:T1; [apply text_eqb_true in T1; left; rewrite T1; reflexivity|].
  destruct (text_eqb r (txt "infinity")) eqn:T2; [apply text_eqb_true in T2; right; left; rewrite T2; reflexivity|].
  destruct (text_eqb r (txt "nan")) eqn:T3; [apply text_eqb_true in T3; right; right; left; rewrite T3; reflexivity|]; cbn [orb] in H.
  destruct (read_decimal r) as [[m k]|] eqn:RD; [|discriminate]; destruct (read_decimal_inv _ _ _ RD) as (ip & fp & ex & -> & W).
  right; right; right; exists ip, fp, ex; split; [exact W|reflexivity].
Qed.
(** underscores *)
Fixpoint between (after_digit : bool) (s : text) : bool :=
  match s with
  | [] => true
  | c :: t => if Ascii.eqb c "_" then after_digit && match t with d :: _ => is_digit d | [] => false end && between false t
              else between (is_digit c) t
  end.
Lemma drop_between s : forall f, drop_underscores f s = if between f s then Some (without_underscores s) else None.
Proof.
  induction s as [|c s IH]; intros f; [reflexivity|]; cbn [drop_underscores between without_underscores filter].
  destruct (ascii_dec c "_") as [->|N].
  - rewrite Ascii.eqb_refl; cbn [negb]; destruct s as [|d s]; [rewrite andb_false_r; reflexivity|].
    destruct (f && is_digit d); [apply IH|reflexivity].
  - rewrite IH; apply Ascii.eqb_neq in N; rewrite N; cbn [negb]; destruct (between (is_digit c) s); reflexivity.
Qed.
Definition after (f : bool) (a : text) : bool := match rev a with [] => f | c :: _ => is_digit c end.
Lemma after_cons f c a : after f (c :: a) = after (is_digit c) a.
Proof. unfold after; cbn [rev]; destruct (rev a); reflexivity. Qed.
Lemma between_spec s : forall f, between f s = true <-> forall a b, s = a ++ "_"%char :: b -> after f a = true /\ match b with d :: _ => is_digit d = true | [] => False end.
Proof.
  induction s as [|c s IH]; intros f; cbn [between].
  - split; [|reflexivity]; intros _ a b E; destruct a; discriminate.
  - destruct (Ascii.eqb c "_") eqn:Q.
    + apply Ascii.eqb_eq in Q; subst c; split.
      * intros H; apply andb_prop in H; destruct H as [H H3]; apply andb_prop in H; destruct H as [H1 H2]; intros [|x a] b E; [injection E as E2|injection E as E1 E2].
        -- subst s; split; [exact H1|destruct b; [discriminate|exact H2]].
        -- subst x s; rewrite after_cons; destruct (proj1 (IH _) H3 a b eq_refl) as [G1 G2]; split; [exact G1|exact G2].
      * intros H; destruct (H [] s eq_refl) as [G1 G2]; rewrite andb_true_iff, andb_true_iff; split; [split; [exact G1|destruct s; [destruct G2|exact G2]]|].
        apply IH; intros a b ->; destruct (H ("_"%char :: a) b eq_refl) as [K1 K2]; rewrite after_cons in K1; split; [exact K1|exact K2].
    + split.
      * intros H [|x a] b E; injection E as E1 E2; [rewrite E1, Ascii.eqb_refl in Q; discriminate|]; subst x s; rewrite after_cons; apply (proj1 (IH _) H a b eq_refl).
      * intros H; apply IH; intros a b ->; destruct (H (c :: a) b eq_refl) as [K1 K2]; rewrite after_cons in K1; split; [exact K1|exact K2].
Qed.
Lemma between_grouped s : between false s = true <-> grouped s.
Proof.
  rewrite between_spec; unfold grouped; split; intros H a b E.
  - destruct (H a b E) as [H1 H2]; unfold after in H1; destruct (rev a) as [|c r] eqn:R; [discriminate|]; destruct b as [|d' b']; [destruct H2|]; exists (rev r), b', c, d'.
    split; [rewrite <- (rev_involutive a), R; reflexivity|split; [reflexivity|split; apply is_digit_iff; assumption]].
  - destruct (H a b E) as (a' & b' & d & d' & -> & -> & D & D'); unfold after; rewrite rev_app_distr; cbn; split; apply is_digit_iff; assumption.
Qed.
Lemma blank_plain c : blank c = true -> Ascii.eqb c "_" = false /\ is_digit c = false.
Proof.
  pose proof (all_ascii (fun c => implb (blank c) (negb (Ascii.eqb c "_") && negb (is_digit c))) ltac:(vm_compute; reflexivity) c) as H; cbv beta in H; intros E; rewrite E in H; cbn [implb] in H.
  apply andb_prop in H; destruct H as [H1 H2]; apply negb_true_iff in H1, H2; split; assumption.
Qed.
Lemma between_blanks a : blanks a -> forall f, between f a = true.
Proof. induction 1 as [|c a H _ IH]; intros f; [reflexivity|]; cbn [between]; destruct (blank_plain c H) as [-> _]; apply IH. Qed.
Lemma between_before a s : blanks a -> between false (a ++ s) = between false s.
Proof. induction 1 as [|c a H _ IH]; [reflexivity|]; cbn [app between]; destruct (blank_plain c H) as [-> ->]; exact IH. Qed.
Lemma between_behind b : blanks b -> forall s f, between f (s ++ b) = between f s.
Proof.
  intros B; induction s as [|c s IH]; intros f; [apply between_blanks; exact B|]; cbn [app between]; rewrite !IH; destruct (Ascii.eqb c "_"); [|reflexivity].
  destruct s as [|d s]; [|reflexivity]; cbn [app]; destruct B as [|x b Hx _]; [reflexivity|]; destruct (blank_plain x Hx) as [_ ->]; rewrite !andb_false_r; reflexivity.
Qed.
Lemma without_app a b : without_underscores (a ++ b) = without_underscores a ++ without_underscores b.
Proof. unfold without_underscores; apply filter_app. Qed.
Lemma without_blanks a : blanks a -> without_underscores a = a.
Proof. induction 1 as [|c a H _ IH]; [reflexivity|]; cbn; destruct (blank_plain c H) as [-> _]; cbn; f_equal; exact IH. Qed.
Lemma without_rev w : rev (without_underscores w) = without_underscores (rev w).
Proof. induction w as [|c w IH]; [reflexivity|]; cbn [rev]; rewrite without_app, <- IH; cbn; destruct (negb (Ascii.eqb c "_")); cbn; [reflexivity|rewrite app_nil_r; reflexivity]. Qed.
Lemma without_tight w : grouped w -> tight w -> tight (without_underscores w).
Proof.
  intros G [T1 T2]; split.
  - destruct w as [|c w]; [exact I|]; cbn; destruct (Ascii.eqb c "_") eqn:Q; cbn; [|exact T1].
    apply Ascii.eqb_eq in Q; subst c; destruct (G [] w eq_refl) as (a' & _ & d & _ & E & _); destruct a'; discriminate.
  - rewrite without_rev; destruct (rev w) as [|c r] eqn:R; [exact I|]; cbn; destruct (Ascii.eqb c "_") eqn:Q; cbn; [|exact T2].
    apply Ascii.eqb_eq in Q; subst c; destruct (G (rev r) []) as (_ & b' & _ & d & _ & E & _); [|discriminate]; rewrite <- (rev_involutive w), R; reflexivity.
Qed.
Lemma without_none w : Forall (fun c => c <> "_"%char) (without_underscores w).
Proof. apply Forall_forall; intros c H; apply filter_In in H; destruct H as [_ H]; intros ->; discriminate. Qed.
Lemma py_float_grouped t : grouped t -> py_float t = py_float (without_underscores t).
Proof.
  intros G; destruct (strip_parts t) as (a & b & E & A & B & T); apply between_grouped in G; unfold py_float; set (w := strip t) in *.
  assert (GW : between false w = true) by (rewrite E, between_before, between_behind in G by assumption; exact G).
  rewrite drop_between, GW; rewrite E, !without_app, (without_blanks a A), (without_blanks b B), strip_tight by first [assumption|apply without_tight; [apply between_grouped; exact GW|exact T]].
  rewrite no_underscore by apply without_none; reflexivity.
Qed.
Lemma py_float_ungrouped t : ~ grouped t -> py_float t = Err ValueError.
Proof.
  intros G; destruct (strip_parts t) as (a & b & E & A & B & T); unfold py_float; set (w := strip t) in *; rewrite drop_between.
  destruct (between false w) eqn:GW; [|reflexivity]; destruct G; apply between_grouped; rewrite E, between_before, between_behind by assumption; exact GW.
Qed.
Lemma nearest_number (s : bool) m k : 0 <= m -> (Rabs (rounded (decimal s m k)) < bpow radix2 1024)%R ->
  finite64 (nearest s m k) /\ value (nearest s m k) = rounded (decimal s m k) /\
  (rounded (decimal s m k) = 0%R -> FloatOps.Prim2SF (nearest s m k) = S754_zero s).
Proof.
  intros Hm B; destruct (Z.eq_dec m 0) as [->|N].
  - assert (E : FloatOps.Prim2SF (nearest s 0 k) = S754_zero s) by (destruct s; reflexivity).
    assert (D : rounded (decimal s 0 k) = 0%R) by (replace (decimal s 0 k) with 0%R by (unfold decimal; destruct s; ring); apply round_0; typeclasses eauto).
    rewrite D; split; [unfold finite64; rewrite E; exact I|split; [unfold value; rewrite E; reflexivity|intros _; exact E]].
  - pose proof (nearest_spec s m k ltac:(lia)) as H; change (rnd (decimal s m k)) with (rounded (decimal s m k)) in H; rewrite Rlt_bool_true in H by exact B.
    destruct H as (F & V & S); split; [exact F|split; [exact V|]]; intros Z0; destruct S as [S|(p & e & S)]; [exact S|].
    destruct (value_nonzero _ _ _ _ S) as (_ & C & _); rewrite V in C; contradiction.
Qed.
Lemma nearest_overflow (s : bool) m k : 0 <= m -> (bpow radix2 1024 <= Rabs (rounded (decimal s m k)))%R -> nearest s m k = if s then neg_infinity else infinity.
Proof.
  intros Hm B; destruct (Z.eq_dec m 0) as [->|N].
  - exfalso; replace (decimal s 0 k) with 0%R in B by (unfold decimal; destruct s; ring); unfold rounded in B; rewrite round_0, Rabs_R0 in B by typeclasses eauto.
    pose proof (bpow_gt_0 radix2 1024); lra.
  - pose proof (nearest_spec s m k ltac:(lia)) as H; change (rnd (decimal s m k)) with (rounded (decimal s m k)) in H; rewrite Rlt_bool_false in H by exact B; exact H.
Qed.
Lemma parse_number a w b sg ip fp ex : white a -> white b -> well_formed ip fp ex -> map small w = literal sg ip fp ex ->
  exists y, py_float (a ++ w ++ b) = Ok y /\
    ((Rabs (rounded (literal_value sg ip fp ex)) < bpow radix2 1024)%R -> finite64 y /\ value y = rounded (literal_value sg ip fp ex) /\
       (rounded (literal_value sg ip fp ex) = 0%R -> FloatOps.Prim2SF y = S754_zero (minus sg))) /\
    ((bpow radix2 1024 <= Rabs (rounded (literal_value sg ip fp ex)))%R -> y = if minus sg then neg_infinity else infinity).
Proof.
  intros A B W E; apply white_blank in A, B; eexists; split; [apply py_float_number; eassumption|]; destruct W as (D1 & D2 & _).
  assert (P : 0 <= positional (ip ++ fraction_digits fp)) by (apply positional_nonneg, Forall_app; split; assumption).
  split; intros H; [apply nearest_number|apply nearest_overflow]; assumption.
Qed.
Lemma parse_words a w b sg : white a -> white b ->
  (map small w = sign_text sg ++ txt "inf" \/ map small w = sign_text sg ++ txt "infinity" -> py_float (a ++ w ++ b) = Ok (if minus sg then neg_infinity else infinity)) /\
  (map small w = sign_text sg ++ txt "nan" -> py_float (a ++ w ++ b) = Ok nan).
Proof.
  intros A B; apply white_blank in A, B; split; [intros [H|H]; [apply (py_float_inf a w b sg (txt "inf"))|apply (py_float_inf a w b sg (txt "infinity"))]; auto|apply py_float_nan; assumption].
Qed.
Lemma parse_others t : ~ In "_"%char t ->
  (forall a w b sg, t = a ++ w ++ b -> white a -> white b ->
     map small w <> sign_text sg ++ txt "inf" /\ map small w <> sign_text sg ++ txt "infinity" /\ map small w <> sign_text sg ++ txt "nan" /\
     forall ip fp ex, well_formed ip fp ex -> map small w <> literal sg ip fp ex) -> py_float t = Err ValueError.
Proof.
  intros U H; destruct (py_float_outcome t) as [(y & E)|E]; [exfalso|exact E].
  destruct (py_float_accepts t y U E) as (a & w & b & sg & Et & A & B & C); destruct (H a w b sg Et (proj2 (white_blank a) A) (proj2 (white_blank b) B)) as (H1 & H2 & H3 & H4).
  destruct C as [C|[C|[C|(ip & fp & ex & W & C)]]]; [exact (H1 C)|exact (H2 C)|exact (H3 C)|exact (H4 ip fp ex W C)].
Qed.
Lemma format_special x : (FloatOps.Prim2SF x = S754_nan -> fmt_float x = txt "nan") /\ (forall s : bool, FloatOps.Prim2SF x = S754_infinity s -> fmt_float x = if s return list ascii then txt "-inf" else txt "inf") /\
  (forall s : bool, FloatOps.Prim2SF x = S754_zero s -> fmt_float x = if s return list ascii then txt "-0.0" else txt "0.0").
Proof. split; [|split]; intros; unfold fmt_float; rewrite H; reflexivity. Qed.
Lemma format_number x : finite64 x -> value x <> 0%R -> exists (s : bool) ip fp ex c i n, (s = true <-> (value x < 0)%R) /\
  fmt_float x = literal (if s then Some true else None) ip fp ex /\ well_formed ip fp ex /\ usual ip fp ex /\
  literal_value (if s then Some true else None) ip fp ex = decimal s c i /\ 1 <= n <= 17 /\ 10 ^ (n - 1) <= c < 10 ^ n /\
  (ex = None <-> 1 / 10000 <= Rabs (decimal s c i) < 10 ^ 16)%R /\
  rounded (decimal s c i) = value x /\
  (forall m k, 0 < m < 10 ^ (n - 1) -> rounded (decimal s m k) <> value x) /\
  (forall m k, 0 < m < 10 ^ n -> rounded (decimal s m k) = value x -> (Rabs (decimal s c i - value x) <= Rabs (decimal s m k - value x))%R) /\
  (forall m k, 0 < m < 10 ^ n -> rounded (decimal s m k) = value x -> Rabs (decimal s c i - value x) = Rabs (decimal s m k - value x) ->
     decimal s m k = decimal s c i \/ Z.even c = true \/ c = 1).
Proof.
  intros F N; destruct (FloatOps.Prim2SF x) as [s|s| |s p e] eqn:HX.
  1-3: exfalso; unfold finite64 in F; unfold value in N; rewrite HX in F, N; try contradiction; apply N; reflexivity.
  destruct (fmt_spec x s p e HX) as (ip & fp & ex & c & i & n & H1 & H2 & H3 & H4 & H5 & H6 & H7 & H8 & H9 & H10 & H11 & H12 & H13 & H14).
  exists s, ip, fp, ex, c, i, n; split; [|split; [exact H1|split; [exact H2|split; [exact H5|split; [exact H7|split; [exact H8|split; [exact H9|split; [exact H10|split; [exact H11|split; [exact H14|split; [exact H12|exact H13]]]]]]]]]]].
  destruct (value_nonzero _ _ _ _ HX) as (VS & _ & _); rewrite VS; pose proof (powerRZ_lt 2 e ltac:(lra)) as Pe; assert (Pp : (0 < IZR (Z.pos p))%R) by (apply IZR_lt; lia).
  destruct s; split; intros G; try reflexivity; try discriminate; [nra|exfalso; nra].
Qed.

(** ** int() *)
Lemma int_number a b sg ds : white a -> white b -> decimal_digits ds -> ds <> [] ->
  py_int (a ++ (sign_text sg ++ chars ds) ++ b) = Ok (if minus sg then - positional ds else positional ds).
Proof.
  intros A B D N; apply white_blank in A, B; assert (P : Forall plain_char (sign_text sg ++ chars ds)).
  { apply Forall_app; split; [destruct sg as [[]|]; repeat constructor; cbn; tauto|apply plain_chars; exact D]. }
  assert (NN : sign_text sg ++ chars ds <> []) by (destruct ds; [congruence|]; destruct (sign_text sg); discriminate).
  unfold py_int; rewrite strip_padded, no_underscore by first [assumption | eapply Forall_impl; [|exact P]; intros c H; apply plain_spec in H; tauto].
  assert (R : read_sign (sign_text sg ++ chars ds) = (minus sg, chars ds)).
  { destruct sg as [[]|]; [reflexivity|reflexivity|]; cbn [sign_text app minus]; destruct D as [|d ds Hd D]; [congruence|].
    assert (C : d = 0 \/ d = 1 \/ d = 2 \/ d = 3 \/ d = 4 \/ d = 5 \/ d = 6 \/ d = 7 \/ d = 8 \/ d = 9) by lia; intuition subst; reflexivity. }
  rewrite R, <- (app_nil_r (chars ds)), read_digits_chars by (assumption || exact I); rewrite <- number_positional.
  destruct ds; [congruence|reflexivity].
Qed.
Lemma int_grouped t : (grouped t -> py_int t = py_int (without_underscores t)) /\ (~ grouped t -> py_int t = Err ValueError).
Proof.
  destruct (strip_parts t) as (a & b & E & A & B & T); split; intros G; unfold py_int; set (w := strip t) in *; rewrite drop_between.
  - apply between_grouped in G; assert (GW : between false w = true) by (rewrite E, between_before, between_behind in G by assumption; exact G).
    rewrite GW; rewrite E, !without_app, (without_blanks a A), (without_blanks b B), strip_tight by first [assumption|apply without_tight; [apply between_grouped; exact GW|exact T]].
    rewrite no_underscore by apply without_none; reflexivity.
  - destruct (between false w) eqn:GW; [|reflexivity]; destruct G; apply between_grouped; rewrite E, between_before, between_behind by assumption; exact GW.
Qed.
Lemma int_others t : ~ In "_"%char t ->
  (forall a b sg ds, white a -> white b -> decimal_digits ds -> ds <> [] -> t <> a ++ (sign_text sg ++ chars ds) ++ b) -> py_int t = Err ValueError.
Proof.
  intros NU H; destruct (strip_parts t) as (a & b & E & A & B & _); unfold py_int; set (w := strip t) in *.
  rewrite no_underscore by (apply Forall_forall; intros c Hc ->; apply NU; rewrite E; apply in_or_app; right; apply in_or_app; left; exact Hc).
  destruct (read_sign w) as [neg r] eqn:RS; destruct (read_sign_inv _ _ _ RS) as (sg & ES & _).
  destruct (read_digits r) as [[|d ds] [|c q]] eqn:RD; try reflexivity; exfalso; destruct (read_digits_inv _ _ _ RD) as (ER & D & _); rewrite app_nil_r in ER.
  apply (H a b sg (d :: ds)); [apply white_blank; exact A|apply white_blank; exact B|exact D|discriminate|]; rewrite <- ER, <- ES; exact E.
Qed.
