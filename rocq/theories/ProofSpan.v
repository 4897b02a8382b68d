(** Lemmas about [find_span] (model: ModelKnots.v). *)
From Verif Require Import Py PyLemmas Num ModelKnots Spec ProofNum MathCox MathKnots.
Open Scope Z_scope.

Lemma quot2_between a b : a <= b -> a <= Z.quot (a + b) 2 <= b.
Proof. intros H; Z.to_euclidean_division_equations; lia. Qed.
Lemma quot2_nonneg a b : 0 <= a -> 0 <= b -> 2 * Z.quot (a + b) 2 <= a + b <= 2 * Z.quot (a + b) 2 + 1.
Proof.
  intros Ha Hb; pose proof (Z.quot_rem (a + b) 2 ltac:(lia)) as E.
  pose proof (Z.rem_bound_pos (a + b) 2 ltac:(lia) ltac:(lia)); lia.
Qed.
Lemma first_mid_bounds a b : a <= b -> a + b <= 2 * first_mid a b <= a + b + 1.
Proof.
  intros H; unfold first_mid; pose proof (Z.div_mod (a + b) 2 ltac:(lia)).
  pose proof (Z.mod_pos_bound (a + b) 2 ltac:(lia)).
  destruct (Z.eqb_spec ((a + b) mod 2) 0).
  - lia.
  - pose proof (Z.div_mod (a + b + 1) 2 ltac:(lia)); pose proof (Z.mod_pos_bound (a + b + 1) 2 ltac:(lia)).
    lia.
Qed.

Section Loop.
Context {K : Num} (P : K -> Prop) (WO : weak_order K P).
Variables (u : K) (m : nat) (f : Z -> K).
Hypothesis Pu : P u.
Hypothesis Pf : forall i, 0 <= i < Z.of_nat m -> P (f i).
Notation kv := (tab m f).

Lemma span_loop_step fuel low high mid : 0 <= mid < Z.of_nat m ->
  (nltb u (f mid) = false -> mid + 1 < Z.of_nat m) ->
  span_loop (S fuel) u kv low high mid =
    if nltb u (f mid) then span_loop fuel u kv low mid (Z.quot (low + mid) 2)
    else if nltb (f (mid + 1)) u then span_loop fuel u kv mid high (Z.quot (mid + high) 2)
    else Ok mid.
Proof.
  intros H1 H2; cbn [span_loop]; rewrite aget_tab by lia; cbn [bind].
  destruct (nltb u (f mid)) eqn:E; cbn [bind]; [reflexivity|].
  rewrite aget_tab by (specialize (H2 eq_refl); lia); cbn [bind].
  destruct (nltb (f (mid + 1)) u); reflexivity.
Qed.

(** Inside the domain the bisection stops, on a span around [u]. *)
Lemma span_loop_inside : forall fuel low high,
  0 <= low < high -> high < Z.of_nat m -> (Z.to_nat (high - low) <= fuel)%nat ->
  nltb u (f low) = false -> nltb u (f high) = true ->
  exists s, span_loop fuel u kv low high (Z.quot (low + high) 2) = Ok s /\
            low <= s < high /\ nltb u (f s) = false /\ nltb (f (s + 1)) u = false.
Proof.
  induction fuel as [|fuel IH]; intros low high Hl Hh Hf Hul Huh; [lia|].
  pose proof (quot2_nonneg low high ltac:(lia) ltac:(lia)) as Hq.
  set (mid := Z.quot (low + high) 2) in *.
  rewrite span_loop_step by lia.
  destruct (nltb u (f mid)) eqn:E1.
  - assert (low <> mid) by (intros Em; rewrite Em in Hul; congruence).
    destruct (IH low mid) as (s & Es & Hs & R); try lia; try assumption.
    exists s; split; [exact Es|split; [lia|exact R]].
  - destruct (nltb (f (mid + 1)) u) eqn:E2.
    + assert (mid <> low).
      { intros Em; assert (Eh : mid + 1 = high) by lia; rewrite Eh in E2.
        pose proof (wo_irrefl K P WO u Pu) as I.
        rewrite (wo_trans K P WO u (f high) u Pu (Pf high ltac:(lia)) Pu Huh E2) in I; discriminate. }
      destruct (IH mid high) as (s & Es & Hs & R); try lia; try assumption.
      exists s; split; [exact Es|split; [lia|exact R]].
    + exists mid; repeat split; try assumption; lia.
Qed.

Lemma span_loop_first p n : 0 <= p < n -> n < Z.of_nat m ->
  nltb u (f p) = false -> nltb u (f n) = true ->
  exists s, span_loop (Z.to_nat (Z.abs (n - p)) + 3) u kv p n (first_mid p n) = Ok s /\
            p <= s < n /\ nltb u (f s) = false /\ nltb (f (s + 1)) u = false.
Proof.
  intros Hp Hn Hup Hun.
  pose proof (first_mid_bounds p n ltac:(lia)) as Hq.
  set (mid := first_mid p n) in *.
  replace (Z.to_nat (Z.abs (n - p)) + 3)%nat with (S (Z.to_nat (n - p) + 2)) by lia.
  assert (Hne : nltb u (f mid) = false -> mid < n).
  { intros E; destruct (Z.eq_dec mid n) as [Em|]; [rewrite Em in E; congruence|lia]. }
  rewrite span_loop_step by (try lia; intros E; specialize (Hne E); lia).
  destruct (nltb u (f mid)) eqn:E1.
  - assert (p <> mid) by (intros Em; rewrite Em in Hup; congruence).
    destruct (span_loop_inside (Z.to_nat (n - p) + 2) p mid) as (s & Es & Hs & R); try lia; try assumption.
    exists s; split; [exact Es|split; [lia|exact R]].
  - specialize (Hne eq_refl).
    destruct (nltb (f (mid + 1)) u) eqn:E2.
    + destruct (span_loop_inside (Z.to_nat (n - p) + 2) mid n) as (s & Es & Hs & R); try lia; try assumption.
      exists s; split; [exact Es|split; [lia|exact R]].
    + exists mid; repeat split; try assumption; lia.
Qed.
End Loop.

(** Outside the domain the bisection never stops, whatever the fuel. *)
Section Outside.
Context {K : Num} (u : K) (m : nat) (f : Z -> K).
Notation kv := (tab m f).
Lemma span_loop_below p n : 0 <= p -> n < Z.of_nat m ->
  (forall i, p <= i <= n -> nltb u (f i) = true) ->
  forall fuel low high mid, p <= low <= n -> p <= mid <= n ->
  span_loop fuel u kv low high mid = Diverge.
Proof.
  intros Hp Hn Hu; induction fuel as [|fuel IH]; intros low high mid Hl Hm; [reflexivity|].
  rewrite span_loop_step by (try lia; rewrite Hu by lia; discriminate).
  rewrite Hu by lia; apply IH; [lia|].
  destruct (Z_le_dec low mid) as [L|L].
  - pose proof (quot2_between low mid L); lia.
  - pose proof (quot2_between mid low ltac:(lia)); replace (low + mid) with (mid + low) by lia; lia.
Qed.
Lemma span_loop_above p n : 0 <= p -> n + 1 < Z.of_nat m ->
  (forall i, p <= i <= n -> nltb u (f i) = false /\ nltb (f (i + 1)) u = true) ->
  forall fuel low high mid, p <= high <= n -> p <= mid <= n ->
  span_loop fuel u kv low high mid = Diverge.
Proof.
  intros Hp Hn Hu; induction fuel as [|fuel IH]; intros low high mid Hl Hm; [reflexivity|].
  destruct (Hu mid ltac:(lia)) as [H1 H2].
  rewrite span_loop_step by lia.
  rewrite H1, H2; apply IH; [lia|].
  destruct (Z_le_dec mid high) as [L|L].
  - pose proof (quot2_between mid high L); lia.
  - pose proof (quot2_between high mid ltac:(lia)); replace (mid + high) with (high + mid) by lia; lia.
Qed.
(** Above the end knot, when the first probe is below the end. *)
Lemma span_loop_above_in p n : 0 <= p -> n < Z.of_nat m ->
  (forall i, p <= i <= n -> nltb u (f i) = false) -> (forall i, p <= i < n -> nltb (f (i + 1)) u = true) ->
  forall fuel low mid, p <= mid < n -> span_loop fuel u kv low n mid = Diverge.
Proof.
  intros Hp Hn Hu Hu1; induction fuel as [|fuel IH]; intros low mid Hm; [reflexivity|].
  rewrite span_loop_step by lia.
  rewrite Hu, Hu1 by lia; apply IH.
  pose proof (quot2_nonneg mid n ltac:(lia) ltac:(lia)); lia.
Qed.
End Outside.

(** ** Adequacy of the fuel, for all arguments whatsoever: if the fuel chosen in
    [find_span_rtol] runs out, the loop never ends. *)
Section Fuel.
Context {K : Num} (u : K) (kv : list K).

(** One evaluation of the loop condition and body: [inl] stop, [inr] next state. *)
Definition next (low high mid : Z) : res Z + (Z * Z * Z) :=
  match aget kv mid with
  | Ok um =>
      if nltb u um then inr (low, mid, Z.quot (low + mid) 2)
      else match aget kv (mid + 1) with
           | Ok um1 => if nltb um1 u then inr (mid, high, Z.quot (mid + high) 2) else inl (Ok mid)
           | Err e => inl (Err e)
           | Diverge => inl Diverge
           end
  | Err e => inl (Err e)
  | Diverge => inl Diverge
  end.
Lemma span_loop_next fuel low high mid :
  span_loop (S fuel) u kv low high mid =
  match next low high mid with
  | inl r => r
  | inr (l, h, md) => span_loop fuel u kv l h md
  end.
Proof.
  cbn [span_loop]; unfold next; destruct (aget kv mid) as [um|e|]; cbn [bind]; try reflexivity.
  destruct (nltb u um) eqn:E; cbn [bind]; [reflexivity|].
  destruct (aget kv (mid + 1)) as [um1|e|]; cbn [bind]; try reflexivity.
  destruct (nltb um1 u); reflexivity.
Qed.
Lemma next_cases low high mid :
  (exists r, next low high mid = inl r /\ r <> Diverge) \/
  next low high mid = inr (low, mid, Z.quot (low + mid) 2) \/
  next low high mid = inr (mid, high, Z.quot (mid + high) 2).
Proof.
  assert (NA : forall i, aget kv i <> Diverge).
  { intros i; unfold aget; destruct (_ && _); [destruct (nth_error _ _)|]; discriminate. }
  unfold next; destruct (aget kv mid) as [um|e|] eqn:E0.
  - destruct (nltb u um); [right; left; reflexivity|].
    destruct (aget kv (mid + 1)) as [um1|e|] eqn:E1.
    + destruct (nltb um1 u); [right; right; reflexivity|left; eexists; split; [reflexivity|discriminate]].
    + left; eexists; split; [reflexivity|discriminate].
    + exfalso; exact (NA _ E1).
  - left; eexists; split; [reflexivity|discriminate].
  - exfalso; exact (NA _ E0).
Qed.

Definition forever low high mid := forall fuel, span_loop fuel u kv low high mid = Diverge.

Lemma forever_fix low high mid : next low high mid = inr (low, high, mid) -> forever low high mid.
Proof.
  intros H fuel; induction fuel as [|fuel IH]; [reflexivity|].
  rewrite span_loop_next, H; exact IH.
Qed.
Lemma forever_next low high mid l h md : next low high mid = inr (l, h, md) -> forever l h md -> forever low high mid.
Proof. intros H F [|fuel]; [reflexivity|]; rewrite span_loop_next, H; apply F. Qed.

(** all indices equal: immediate fixed point *)
Lemma point_fuel x fuel : (1 <= fuel)%nat -> span_loop fuel u kv x x x = Diverge -> forever x x x.
Proof.
  intros Hf H; destruct fuel as [|fuel]; [lia|]; rewrite span_loop_next in H.
  assert (Q : Z.quot (x + x) 2 = x) by (pose proof (quot2_between x x ltac:(lia)); lia).
  destruct (next_cases x x x) as [(r & E & Hr)|[E|E]]; rewrite E in H; [contradiction| |];
    rewrite Q in E; apply forever_fix; exact E.
Qed.

(** states produced by the loop body: mid = quot (low+high) 2 *)
Lemma body_fuel : forall d fuel low high, low <= high -> high - low <= Z.of_nat d ->
  (d + 2 <= fuel)%nat ->
  span_loop fuel u kv low high (Z.quot (low + high) 2) = Diverge ->
  forever low high (Z.quot (low + high) 2).
Proof.
  induction d as [|d IH]; intros fuel low high Hle Hd Hf H.
  - assert (high = low) as -> by lia.
    assert (Q : Z.quot (low + low) 2 = low) by (pose proof (quot2_between low low ltac:(lia)); lia).
    rewrite Q in *; apply (point_fuel low fuel); [lia|exact H].
  - pose proof (quot2_between low high Hle) as Hq.
    set (mid := Z.quot (low + high) 2) in *.
    destruct fuel as [|fuel]; [lia|]; rewrite span_loop_next in H.
    destruct (next_cases low high mid) as [(r & E & Hr)|[E|E]]; rewrite E in H; [contradiction| |].
    + destruct (Z.eq_dec mid high) as [Em|Hne].
      * apply forever_fix; rewrite E, Em; do 2 f_equal; unfold mid in *; lia.
      * eapply forever_next; [exact E|]; apply (IH fuel); try lia; exact H.
    + destruct (Z.eq_dec mid low) as [Em|Hne].
      * apply forever_fix; rewrite E, Em; do 2 f_equal; unfold mid in *; lia.
      * eapply forever_next; [exact E|]; apply (IH fuel); try lia; exact H.
Qed.

Lemma body_fuel_rev : forall d fuel low high, high <= low -> low - high <= Z.of_nat d ->
  (d + 2 <= fuel)%nat ->
  span_loop fuel u kv low high (Z.quot (low + high) 2) = Diverge ->
  forever low high (Z.quot (low + high) 2).
Proof.
  induction d as [|d IH]; intros fuel low high Hle Hd Hf H.
  - assert (high = low) as -> by lia.
    assert (Q : Z.quot (low + low) 2 = low) by (pose proof (quot2_between low low ltac:(lia)); lia).
    rewrite Q in *; apply (point_fuel low fuel); [lia|exact H].
  - pose proof (quot2_between high low Hle) as Hq.
    replace (high + low) with (low + high) in Hq by lia.
    set (mid := Z.quot (low + high) 2) in *.
    destruct fuel as [|fuel]; [lia|]; rewrite span_loop_next in H.
    destruct (next_cases low high mid) as [(r & E & Hr)|[E|E]]; rewrite E in H; [contradiction| |].
    + destruct (Z.eq_dec mid high) as [Em|Hne].
      * apply forever_fix; rewrite E, Em; do 2 f_equal; unfold mid in *; lia.
      * eapply forever_next; [exact E|]; apply (IH fuel); try lia; exact H.
    + destruct (Z.eq_dec mid low) as [Em|Hne].
      * apply forever_fix; rewrite E, Em; do 2 f_equal; unfold mid in *; lia.
      * eapply forever_next; [exact E|]; apply (IH fuel); try lia; exact H.
Qed.
Lemma body_fuel_any fuel low high : (Z.to_nat (Z.abs (high - low)) + 2 <= fuel)%nat ->
  span_loop fuel u kv low high (Z.quot (low + high) 2) = Diverge ->
  forever low high (Z.quot (low + high) 2).
Proof.
  intros Hf H; destruct (Z_le_dec low high).
  - apply (body_fuel (Z.to_nat (Z.abs (high - low))) fuel); try lia; exact H.
  - apply (body_fuel_rev (Z.to_nat (Z.abs (high - low))) fuel); try lia; exact H.
Qed.

Lemma first_mid_between low high :
  (low <= high -> low <= first_mid low high <= high) /\ (high <= low -> high <= first_mid low high <= low).
Proof.
  split; intros H.
  - pose proof (first_mid_bounds low high H).
    destruct (Z.eq_dec low high) as [->|]; [|lia].
    unfold first_mid in *; replace (high + high) with (high * 2) in * by lia.
    rewrite Z.mod_mul in * by lia; cbn [Z.eqb] in *; rewrite Z.div_mul in * by lia; lia.
  - assert (first_mid low high = first_mid high low) as -> by (unfold first_mid; rewrite (Z.add_comm low high); reflexivity).
    pose proof (first_mid_bounds high low H).
    destruct (Z.eq_dec low high) as [->|]; [|lia].
    unfold first_mid in *; replace (high + high) with (high * 2) in * by lia.
    rewrite Z.mod_mul in * by lia; cbn [Z.eqb] in *; rewrite Z.div_mul in * by lia; lia.
Qed.

Lemma span_loop_fuel_adequate low high :
  span_loop (Z.to_nat (Z.abs (high - low)) + 3) u kv low high (first_mid low high) = Diverge ->
  forever low high (first_mid low high).
Proof.
  intros H; replace (Z.to_nat (Z.abs (high - low)) + 3)%nat with (S (Z.to_nat (Z.abs (high - low)) + 2)) in H by lia.
  rewrite span_loop_next in H; destruct (first_mid_between low high) as [B1 B2].
  destruct (next_cases low high (first_mid low high)) as [(r & E & Hr)|[E|E]]; rewrite E in H; [contradiction| |];
    (eapply forever_next; [exact E|]); eapply body_fuel_any; try exact H; destruct (Z_le_dec low high); lia.
Qed.
End Fuel.

Lemma find_span_fuel_adequate (K : Num) (rtol : K) n p u kv :
  find_span_rtol rtol n p u kv = Diverge ->
  forall fuel, span_loop fuel u kv p n (first_mid p n) = Diverge.
Proof.
  intros H; unfold find_span_rtol in H; destruct (aget kv n) as [un|e|] eqn:E; cbn [bind] in H.
  - destruct (isclose_tol rtol lit_1em8 u un); [discriminate|].
    apply span_loop_fuel_adequate; exact H.
  - discriminate.
  - exfalso; revert E; unfold aget; destruct (_ && _); [destruct (nth_error _ _)|]; discriminate.
Qed.

(** ** [find_span] over any number system *)
Lemma find_span_generic (K : Num) (P : K -> Prop) (rtol u : K) n p kv d :
  weak_order K P -> P u -> Forall P kv ->
  0 <= p < n -> n < zlen kv ->
  nltb u (nth (Z.to_nat p) kv d) = false ->
  (isclose_tol rtol lit_1em8 u (nth (Z.to_nat n) kv d) = false ->
   nltb u (nth (Z.to_nat n) kv d) = true) ->
  exists s, find_span_rtol rtol n p u kv = Ok s /\ p <= s <= n - 1 /\
   (isclose_tol rtol lit_1em8 u (nth (Z.to_nat n) kv d) = true /\ s = n - 1 \/
    isclose_tol rtol lit_1em8 u (nth (Z.to_nat n) kv d) = false /\
    nltb u (nth (Z.to_nat s) kv d) = false /\ nltb (nth (Z.to_nat (s + 1)) kv d) u = false).
Proof.
  intros WO Pu Pkv Hp Hn Hup Hun; unfold find_span_rtol.
  rewrite (aget_nth kv n d) by lia; cbn [bind].
  destruct (isclose_tol rtol lit_1em8 u (nth (Z.to_nat n) kv d)) eqn:E.
  - exists (n - 1); split; [reflexivity|]; split; [lia|left; split; reflexivity].
  - specialize (Hun eq_refl).
    rewrite (list_as_tab kv d).
    unfold zlen in Hn.
    destruct (span_loop_first P WO u (length kv) (fun i => nth (Z.to_nat i) kv d) Pu) with (p := p) (n := n)
      as (s & Es & Hs & R1 & R2); try assumption; try lia.
    + intros i Hi; apply (proj1 (Forall_forall P kv) Pkv); apply nth_In; lia.
    + rewrite <- (list_as_tab kv d) in *.
      exists s; split; [exact Es|]; split; [lia|right; split; [reflexivity|split; assumption]].
Qed.

(** ** Instances *)
Lemma fin_tab U : fin U = tab (length U) (fun i => Fin (kn U i) : Exact).
Proof.
  rewrite (list_as_tab (fin U) (Fin (last U 0%R))) at 1.
  unfold fin at 1; rewrite map_length; apply tab_ext; intros i Hi.
  unfold fin; rewrite (map_nth Fin); reflexivity.
Qed.
Lemma aget_fin U i : 0 <= i < len U -> aget (fin U) i = Ok (Fin (kn U i) : Exact).
Proof. intros H; rewrite fin_tab, aget_tab by exact H; reflexivity. Qed.
Lemma nth_fin U i d : 0 <= i < len U -> nth (Z.to_nat i) (fin U) d = Fin (kn U i).
Proof. intros H; rewrite fin_tab, nth_tab by (unfold len in H; lia); rewrite Z2Nat.id by lia; reflexivity. Qed.

Definition is_fin (x : Exact) : Prop := exists r, x = Fin r.
Lemma exact_weak_order : weak_order Exact is_fin.
Proof.
  split.
  - intros x [r ->]; rewrite E_ltb; apply Rltb_false; lra.
  - intros x y z [a ->] [b ->] [c ->]; rewrite !E_ltb, !Rltb_true; lra.
  - intros x y z [a ->] [b ->] [c ->]; rewrite !E_ltb, !Rltb_true; lra.
Qed.
Lemma fin_is_fin U : Forall is_fin (fin U).
Proof. apply Forall_forall; intros x Hx; apply in_map_iff in Hx; destruct Hx as (r & <- & _); exists r; reflexivity. Qed.

Open Scope R_scope.
Lemma isclose_dec rtol u e :
  isclose_tol (Fin rtol : Exact) lit_1em8 (Fin u) (Fin e) = true /\ close rtol (1/100000000) u e \/
  isclose_tol (Fin rtol : Exact) lit_1em8 (Fin u) (Fin e) = false /\ ~ close rtol (1/100000000) u e.
Proof.
  rewrite E_1em8; pose proof (E_isclose_tol rtol (1/100000000) u e) as H.
  destruct (isclose_tol _ _ _ _); [left|right]; split; try reflexivity; [apply H; reflexivity|].
  intros C; apply H in C; discriminate.
Qed.

Lemma find_span_inside rtol p n U u :
  0 <= rtol -> knots_for p n U -> kn U p <= u <= kn U n ->
  exists s, find_span_rtol (Fin rtol : Exact) n p (Fin u) (fin U) = Ok s /\ (p <= s <= n - 1)%Z /\
   (close rtol (1/100000000) u (kn U n) /\ s = (n - 1)%Z \/
    ~ close rtol (1/100000000) u (kn U n) /\ kn U s <= u <= kn U (s + 1)).
Proof.
  intros Hr (Hp & Hn & HL & HU) Hu.
  destruct (find_span_generic Exact is_fin (Fin rtol) (Fin u) n p (fin U) (Fin 0)) as (s & Es & Hs & R).
  - exact exact_weak_order.
  - exists u; reflexivity.
  - apply fin_is_fin.
  - lia.
  - rewrite zlen_fin; lia.
  - rewrite nth_fin by lia; rewrite E_ltb; apply Rltb_false; lra.
  - rewrite nth_fin by lia; intros E; rewrite E_ltb; apply Rltb_true.
    destruct (isclose_dec rtol u (kn U n)) as [[E' _]|[_ C]]; [congruence|].
    destruct (Req_EM_T u (kn U n)) as [->|]; [|lra].
    exfalso; apply C; apply close_refl; lra.
  - exists s; split; [exact Es|]; split; [exact Hs|].
    rewrite !nth_fin in R by lia.
    destruct (isclose_dec rtol u (kn U n)) as [[E' C]|[E' C]]; destruct R as [[R1 R2]|(R1 & R2 & R3)]; try congruence.
    + left; split; assumption.
    + right; split; [exact C|].
      rewrite E_ltb in R2, R3; apply Rltb_false in R2; apply Rltb_false in R3; lra.
Qed.

Lemma find_span_half_open rtol p n U u :
  0 <= rtol -> knots_for p n U -> kn U p <= u <= kn U n ->
  ~ close rtol (1/100000000) u (kn U n) ->
  (forall i, (p < i < n)%Z -> u <> kn U i) ->
  exists s, find_span_rtol (Fin rtol : Exact) n p (Fin u) (fin U) = Ok s /\ (p <= s <= n - 1)%Z /\
    kn U s <= u < kn U (s + 1) /\
    (forall s', kn U s' <= u < kn U (s' + 1) -> s' = s).
Proof.
  intros Hr HK Hu HC Hi.
  destruct (find_span_inside rtol p n U u Hr HK Hu) as (s & Es & Hs & [[C _]|[_ HB]]); [contradiction|].
  assert (Hlt : u < kn U (s + 1)).
  { destruct (Req_EM_T u (kn U (s + 1))) as [E|]; [|lra].
    destruct (Z.eq_dec (s + 1) n) as [En|].
    - exfalso; apply HC; rewrite <- En, <- E; apply close_refl; lra.
    - exfalso; apply (Hi (s + 1)%Z); [lia|exact E]. }
  exists s; split; [exact Es|]; split; [exact Hs|]; split; [lra|].
  intros s' Hs'; destruct HK as (_ & _ & _ & HU).
  apply (in_span_unique U s' s u HU); left; [exact Hs'|lra].
Qed.

Lemma find_span_below_diverges rtol p n U u :
  knots_for p n U -> ~ close rtol (1/100000000) u (kn U n) -> u < kn U p ->
  find_span_rtol (Fin rtol : Exact) n p (Fin u) (fin U) = Diverge /\
  forall fuel, span_loop fuel (Fin u : Exact) (fin U) p n (first_mid p n) = Diverge.
Proof.
  intros (Hp & Hn & HL & HU) HC Hu.
  assert (D : forall fuel, span_loop fuel (Fin u : Exact) (fin U) p n (first_mid p n) = Diverge).
  { intros fuel; rewrite fin_tab; destruct (first_mid_between p n) as [B _]; specialize (B ltac:(lia)).
    unfold len in HL.
    apply (span_loop_below (Fin u : Exact) (length U) _ p n); try lia.
    intros i Hi; rewrite E_ltb; apply Rltb_true.
    pose proof (kn_mono U HU p i ltac:(lia)); lra. }
  split; [|exact D].
  unfold find_span_rtol; rewrite aget_fin by lia; cbn [bind].
  destruct (isclose_dec rtol u (kn U n)) as [[E' C]|[E' C]]; [contradiction|].
  rewrite E'; apply D.
Qed.

(** Above the end knot: everything that can happen. *)
Lemma find_span_above rtol p n U u :
  knots_for p n U -> ~ close rtol (1/100000000) u (kn U n) -> kn U n < u ->
  ((p + 1 < n)%Z -> find_span_rtol (Fin rtol : Exact) n p (Fin u) (fin U) = Diverge) /\
  (n = (p + 1)%Z -> (1 <= p)%Z -> kn U (n + 1) < u ->
     find_span_rtol (Fin rtol : Exact) n p (Fin u) (fin U) = Diverge) /\
  (n = (p + 1)%Z -> (1 <= p)%Z -> u <= kn U (n + 1) ->
     find_span_rtol (Fin rtol : Exact) n p (Fin u) (fin U) = Ok n) /\
  (n = (p + 1)%Z -> p = 0%Z -> find_span_rtol (Fin rtol : Exact) n p (Fin u) (fin U) = Err IndexError).
Proof.
  intros (Hp & Hn & HL & HU) HC Hu.
  unfold find_span_rtol; rewrite aget_fin by lia; cbn [bind].
  destruct (isclose_dec rtol u (kn U n)) as [[E' C]|[E' C]]; [contradiction|].
  rewrite E'; clear E'; rewrite fin_tab.
  pose proof (first_mid_bounds p n ltac:(lia)) as B; unfold len in HL.
  assert (Hge : forall i, (i <= n)%Z -> nltb (Fin u : Exact) (Fin (kn U i)) = false).
  { intros i Hi; rewrite E_ltb; apply Rltb_false; pose proof (kn_mono U HU i n ltac:(lia)); lra. }
  assert (Hgt : forall i, (i < n)%Z -> nltb (Fin (kn U (i + 1)) : Exact) (Fin u) = true).
  { intros i Hi; rewrite E_ltb; apply Rltb_true; pose proof (kn_mono U HU (i + 1) n ltac:(lia)); lra. }
  split; [|split; [|split]].
  - intros Hpn; apply (span_loop_above_in (Fin u : Exact) (length U) _ p n); try lia.
    + intros i Hi; apply Hge; lia.
    + intros i Hi; apply Hgt; lia.
  - intros Hpn Hp1 Hu1; apply (span_loop_above (Fin u : Exact) (length U) _ p n); try lia.
    intros i Hi; split; [apply Hge; lia|].
    rewrite E_ltb; apply Rltb_true; pose proof (kn_mono U HU (i + 1) (n + 1) ltac:(lia)); lra.
  - intros Hpn Hp1 Hu1.
    assert (Em : first_mid p n = n) by lia; rewrite Em.
    rewrite Nat.add_comm; cbn [Nat.add]; rewrite span_loop_step by lia.
    rewrite Hge by lia.
    replace (nltb (Fin (kn U (n + 1)) : Exact) (Fin u)) with false; [reflexivity|].
    symmetry; rewrite E_ltb; apply Rltb_false; lra.
  - intros Hpn Hp0.
    assert (Em : first_mid p n = n) by lia; rewrite Em.
    rewrite Nat.add_comm; cbn [Nat.add span_loop]; rewrite aget_tab by lia; cbn [bind].
    rewrite Hge by lia; rewrite aget_out; [reflexivity|].
    rewrite zlen_tab; lia.
Qed.

(** [find_span]'s default tolerance. *)
Lemma find_span_default n p u kv : find_span n p u kv = find_span_rtol (Fin (1/1000000) : Exact) n p u kv.
Proof. unfold find_span; rewrite E_1em6; reflexivity. Qed.

(** The end tolerance. *)
Lemma find_span_end_tolerance rtol p n U u :
  knots_for p n U -> close rtol (1/100000000) u (kn U n) ->
  find_span_rtol (Fin rtol : Exact) n p (Fin u) (fin U) = Ok (n - 1)%Z /\
  (kn U n = last U 0 -> kn U (n - 1) < kn U n -> u <= kn U n ->
   (in_span U (n - 1) u <-> kn U (n - 1) <= u)).
Proof.
  intros (Hp & Hn & HL & HU) HC; split.
  - unfold find_span_rtol; rewrite aget_fin by lia; cbn [bind].
    destruct (isclose_dec rtol u (kn U n)) as [[E' C]|[E' C]]; [|contradiction].
    rewrite E'; reflexivity.
  - intros HE Hlt Hu; unfold in_span; replace (n - 1 + 1)%Z with n by lia; split.
    + intros [H|H]; lra.
    + intros H; destruct (Req_EM_T u (kn U n)); [right|left]; lra.
Qed.
