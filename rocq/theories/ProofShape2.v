(** Curves run through backwards. *)
From Coq Require Import Sorted.
From Verif Require Import Py PyLemmas Num ModelKnots ModelBasis ModelCurve ModelSurface Spec SpecSmooth SpecShape
  MathCox MathKnots MathDeriv MathJoin MathSmooth MathShape ProofNum ProofSpan2 ProofCurve ProofSurface ProofParam5 ProofParam6 ProofSmooth ProofSmooth2 ProofSmooth3 ProofSmooth9 ProofShape.
Open Scope R_scope.

Lemma zsum_rev a n f : zsum a n f = zsum a n (fun i => f (2 * a + Z.of_nat n - 1 - i)%Z).
Proof.
  revert a; induction n as [|n IH]; intros a; [reflexivity|].
  rewrite zsum_first at 1; cbn [zsum]; rewrite (Rplus_comm (f a)); f_equal; [|f_equal; lia].
  rewrite IH, zsum_shift; apply zsum_ext; intros i _; f_equal; lia.
Qed.

Lemma mirror_len U : len (mirror U) = len U.
Proof. unfold len, mirror; rewrite map_length, rev_length; reflexivity. Qed.
Lemma mirror_kn U k : (0 <= k < len U)%Z -> kn (mirror U) k = 1 - kn U (len U - 1 - k).
Proof.
  intros Hk; unfold len in Hk; unfold kn.
  rewrite (nth_indep _ _ (1 - 0)) by (unfold mirror; rewrite map_length, rev_length; lia).
  unfold mirror; rewrite (map_nth (fun x => 1 - x) (rev U) 0); f_equal.
  rewrite rev_nth by lia; rewrite (nth_indep U 0 (last U 0)) by lia; f_equal; unfold len; lia.
Qed.

Section Mirror.
Variables (p n : Z) (U : list R).
Hypothesis HC : clamped p n U.
Lemma mirror_at k : (0 <= k <= n + p)%Z -> kn (mirror U) k = 1 - kn U (n + p - k).
Proof. intros Hk; destruct HC as ((_ & _ & L & _) & _); rewrite mirror_kn by lia; do 2 f_equal; lia. Qed.
Lemma mirror_clamped : clamped p n (mirror U).
Proof.
  destruct HC as ((Hp & Hn & L & HU) & E0 & E1 & E2); repeat split.
  - exact Hp.
  - exact Hn.
  - rewrite mirror_len; exact L.
  - intros i j Hij Hj; rewrite mirror_len in Hj; rewrite !mirror_at by lia; pose proof (HU (n + p - j)%Z (n + p - i)%Z ltac:(lia) ltac:(lia)); lra.
  - rewrite !mirror_at by lia; replace (n + p - 0)%Z with (n + p)%Z by lia; replace (n + p - p)%Z with n by lia; lra.
  - rewrite !mirror_at by lia; replace (n + p - n)%Z with p by lia; replace (n + p - (n + p))%Z with 0%Z by lia; lra.
  - rewrite !mirror_at by lia; replace (n + p - n)%Z with p by lia; replace (n + p - p)%Z with n by lia; lra.
Qed.
Lemma mirror_strict : strict p n U -> strict p n (mirror U).
Proof.
  destruct HC as ((Hp & Hn & L & HU) & _); intros S i Hi; rewrite !mirror_at by lia; pose proof (S (n + p - (i + 1))%Z ltac:(lia)) as H.
  replace (n + p - (i + 1) + 1)%Z with (n + p - i)%Z in H by lia; lra.
Qed.
Lemma mirror_start : kn U n = 1 -> kn (mirror U) p = 0.
Proof. intros E; destruct HC as ((Hp & Hn & _) & _); rewrite mirror_at by lia; replace (n + p - p)%Z with n by lia; lra. Qed.
Lemma mirror_stop : kn U p = 0 -> kn (mirror U) n = 1.
Proof. intros E; destruct HC as ((Hp & Hn & _) & _); rewrite mirror_at by lia; replace (n + p - n)%Z with p by lia; lra. Qed.
Lemma mirror_wide : 1/500000 <= kn U (p + 1) -> wide_end n (mirror U).
Proof. intros E; destruct HC as ((Hp & Hn & _) & _); unfold wide_end; rewrite mirror_at by lia; replace (n + p - (n - 1))%Z with (p + 1)%Z by lia; lra. Qed.
End Mirror.

Lemma span_mirror p n U c s u : clamped (Z.of_nat p) n U -> Z.of_nat (length c) = n -> (Z.of_nat p <= s < n)%Z ->
  span_sum (mirror U) (n + Z.of_nat p - 1 - s) p (rev c) (1 - u) = span_sum U s p c u.
Proof.
  intros HC Hn Hs; unfold span_sum; rewrite zsum_rev.
  replace (n + Z.of_nat p - 1 - s - Z.of_nat p)%Z with (s - Z.of_nat p + (n - 1 + Z.of_nat p - 2 * s))%Z by lia; rewrite zsum_shift.
  apply zsum_ext; intros i Hi.
  replace (2 * (s - Z.of_nat p + (n - 1 + Z.of_nat p - 2 * s)) + Z.of_nat (S p) - 1 - (i + (n - 1 + Z.of_nat p - 2 * s)))%Z with (n - 1 - i)%Z by lia.
  f_equal.
  - unfold piece; pose proof (cox_mirror (kn U) (kn (mirror U)) (n + Z.of_nat p) 1 s u (mirror_at _ _ _ HC) p i ltac:(lia) ltac:(lia)) as E.
    unfold delta in E; replace (n + Z.of_nat p - 1 - Z.of_nat p - i)%Z with (n - 1 - i)%Z in E by lia; exact E.
  - rewrite rev_nth by lia; f_equal; lia.
Qed.
Lemma curve_sum_mirror p n U c u : clamped (Z.of_nat p) n U -> Z.of_nat (length c) = n -> strict (Z.of_nat p) n U -> (1 <= p)%nat ->
  kn U (Z.of_nat p) <= u <= kn U n -> curve_sum (mirror U) p (rev c) (1 - u) = curve_sum U p c u.
Proof.
  intros HC Hn HS Hp Hu; assert (HD : continuous (Z.of_nat p) n U) by (apply strict_continuous; [exact HC|lia|exact HS]).
  pose proof (mirror_clamped _ _ _ HC) as MC; pose proof (mirror_strict _ _ _ HC HS) as MS.
  assert (MD : continuous (Z.of_nat p) n (mirror U)) by (apply strict_continuous; [exact MC|lia|exact MS]).
  destruct (clamped_in_span (Z.of_nat p) n U u HC Hu) as (s & Hs & I); pose proof (in_span_width _ _ _ I) as W; pose proof (in_span_closed _ _ _ I) as C.
  rewrite <- (span_sum_curve p n U c u s) by (try assumption; right; assumption).
  rewrite <- (span_sum_curve p n (mirror U) (rev c) (1 - u) (n + Z.of_nat p - 1 - s)); try assumption; try (right; assumption).
  - apply span_mirror; assumption.
  - rewrite rev_length; exact Hn.
  - apply MS; lia.
  - lia.
  - rewrite !(mirror_at _ _ _ HC) by lia; replace (n + Z.of_nat p - (n + Z.of_nat p - 1 - s))%Z with (s + 1)%Z by lia; replace (n + Z.of_nat p - (n + Z.of_nat p - 1 - s + 1))%Z with s by lia; lra.
Qed.
Lemma coords_rev c P : coords c (rev P) = rev (coords c P).
Proof. unfold coords; apply map_rev. Qed.

Lemma single_point_reversed p U P d d' u : clamped (Z.of_nat p) (len P) U -> (1 <= p)%nat -> strict (Z.of_nat p) (len P) U ->
  kn U (Z.of_nat p) = 0 -> kn U (len P) = 1 -> wide_end (len P) U -> 1/500000 <= kn U (Z.of_nat p + 1) -> Forall (fun row => length row = 3%nat) P -> 0 <= u <= 1 ->
  exists x, single_point (curve_of (Z.of_nat p) U P d) (Fin u : Exact) = Ok (fin x) /\ length x = 3%nat /\
    single_point (curve_of (Z.of_nat p) (mirror U) (rev P) d') (Fin (1 - u) : Exact) = Ok (fin x).
Proof.
  intros HC Hp HS H0 H1 HW HM HF Hu; assert (L : len (rev P) = len P) by (unfold len; rewrite rev_length; reflexivity).
  exists (curve_xyz U p P u); split; [apply single_point_wide; assumption|]; split; [reflexivity|].
  rewrite single_point_wide; rewrite ?L; try assumption.
  - do 2 f_equal; unfold curve_xyz; apply map_ext; intros c; rewrite coords_rev; apply (curve_sum_mirror p (len P)); try assumption; [unfold coords, len; rewrite map_length; reflexivity|lra].
  - apply mirror_clamped; exact HC.
  - apply mirror_strict; assumption.
  - apply (mirror_start (Z.of_nat p) (len P)); assumption.
  - apply (mirror_stop (Z.of_nat p) (len P)); assumption.
  - apply (mirror_wide (Z.of_nat p)); assumption.
  - apply Forall_rev; exact HF.
  - lra.
Qed.

(** ** Surfaces *)
Lemma swap_len {A} nu nv (P : list (list A)) : length (net_swap nu nv P) = (nv * nu)%nat.
Proof.
  unfold net_swap; assert (G : forall l, length (flat_map (net_col nu nv P) l) = (length l * nu)%nat); [|rewrite G, seq_length; reflexivity].
  induction l as [|j l IH]; [reflexivity|]; cbn [flat_map length]; rewrite app_length, IH; unfold net_col; rewrite map_length, seq_length; lia.
Qed.
Lemma nth_flat_rows {A} (f : nat -> list A) (d : A) w : forall n k i j, (forall i, length (f i) = w) -> (i < n)%nat -> (j < w)%nat ->
  nth (i * w + j) (flat_map f (seq k n)) d = nth j (f (k + i)%nat) d.
Proof.
  induction n as [|n IH]; intros k i j L Hi Hj; [lia|]; cbn [seq flat_map]; destruct i as [|i].
  - rewrite app_nth1 by (rewrite L; lia); f_equal; f_equal; lia.
  - rewrite app_nth2 by (rewrite L; nia); rewrite L; replace (S i * w + j - w)%nat with (i * w + j)%nat by nia.
    rewrite IH by (try assumption; lia); do 2 f_equal; lia.
Qed.
Lemma swap_nth {A} nu nv (P : list (list A)) i j : (i < nu)%nat -> (j < nv)%nat -> nth (j * nu + i) (net_swap nu nv P) [] = nth (i * nv + j) P [].
Proof.
  intros Hi Hj; unfold net_swap; rewrite nth_flat_rows by (try assumption; intros; unfold net_col; rewrite map_length, seq_length; reflexivity).
  unfold net_col; rewrite (nth_indep _ [] (nth (0 * nv + (0 + j)) P [])) by (rewrite map_length, seq_length; exact Hi).
  rewrite (map_nth (fun i => nth (i * nv + (0 + j)) P []) (seq 0 nu) 0%nat i), seq_nth by exact Hi; reflexivity.
Qed.
Lemma rev_u_nth {A} nu nv (P : list (list A)) i j : (i < nu)%nat -> (j < nv)%nat -> nth (i * nv + j) (net_rev_u nu nv P) [] = nth ((nu - 1 - i) * nv + j) P [].
Proof.
  intros Hi Hj; unfold net_rev_u; rewrite (nth_flat_rows (fun i => net_row nv P (nu - 1 - i))) by (try assumption; intros; unfold net_row; rewrite map_length, seq_length; reflexivity).
  unfold net_row; rewrite (nth_indep _ [] (nth ((nu - 1 - (0 + i)) * nv + 0) P [])) by (rewrite map_length, seq_length; exact Hj).
  rewrite (map_nth (fun j => nth ((nu - 1 - (0 + i)) * nv + j) P []) (seq 0 nv) 0%nat j), seq_nth by exact Hj; reflexivity.
Qed.
Lemma rev_v_nth {A} nu nv (P : list (list A)) i j : (i < nu)%nat -> (j < nv)%nat -> nth (i * nv + j) (net_rev_v nu nv P) [] = nth (i * nv + (nv - 1 - j)) P [].
Proof.
  intros Hi Hj; unfold net_rev_v; rewrite (nth_flat_rows (fun i => rev (net_row nv P i))) by (try assumption; intros; rewrite rev_length; unfold net_row; rewrite map_length, seq_length; reflexivity).
  unfold net_row; rewrite rev_nth by (rewrite map_length, seq_length; exact Hj); rewrite map_length, seq_length.
  rewrite (nth_indep _ [] (nth ((0 + i) * nv + 0) P [])) by (rewrite map_length, seq_length; lia).
  rewrite (map_nth (fun j => nth ((0 + i) * nv + j) P []) (seq 0 nv) 0%nat (nv - S j)%nat), seq_nth by lia; do 2 f_equal; lia.
Qed.
Lemma rev_u_len {A} nu nv (P : list (list A)) : length (net_rev_u nu nv P) = (nu * nv)%nat.
Proof.
  unfold net_rev_u; assert (G : forall l, length (flat_map (fun i => net_row nv P (nu - 1 - i)) l) = (length l * nv)%nat); [|rewrite G, seq_length; reflexivity].
  induction l as [|j l IH]; [reflexivity|]; cbn [flat_map length]; rewrite app_length, IH; unfold net_row; rewrite map_length, seq_length; lia.
Qed.
Lemma rev_v_len {A} nu nv (P : list (list A)) : length (net_rev_v nu nv P) = (nu * nv)%nat.
Proof.
  unfold net_rev_v; assert (G : forall l, length (flat_map (fun i => rev (net_row nv P i)) l) = (length l * nv)%nat); [|rewrite G, seq_length; reflexivity].
  induction l as [|j l IH]; [reflexivity|]; cbn [flat_map length]; rewrite app_length, rev_length, IH; unfold net_row; rewrite map_length, seq_length; lia.
Qed.
Lemma rows_forall {A} (Q : list A -> Prop) (f : nat -> list (list A)) l : (forall i, In i l -> Forall Q (f i)) -> Forall Q (flat_map f l).
Proof. intros H; apply Forall_flat_map, Forall_forall; exact H. Qed.
Lemma net_in {A} (Q : list A -> Prop) P k : Forall Q P -> (k < length P)%nat -> Q (nth k P []).
Proof. intros F L; rewrite Forall_forall in F; apply F, nth_In; exact L. Qed.
Lemma swap_3 {A} (Q : list A -> Prop) nu nv P : length P = (nu * nv)%nat -> Forall Q P -> Forall Q (net_swap nu nv P).
Proof.
  intros L F; apply rows_forall; intros j Hj; apply in_seq in Hj; apply Forall_forall; intros x Hx; unfold net_col in Hx; apply in_map_iff in Hx; destruct Hx as (i & <- & Hi); apply in_seq in Hi.
  apply net_in; [exact F|nia].
Qed.
Lemma rev_u_3 {A} (Q : list A -> Prop) nu nv P : length P = (nu * nv)%nat -> Forall Q P -> Forall Q (net_rev_u nu nv P).
Proof.
  intros L F; apply rows_forall; intros i Hi; apply in_seq in Hi; apply Forall_forall; intros x Hx; unfold net_row in Hx; apply in_map_iff in Hx; destruct Hx as (j & <- & Hj); apply in_seq in Hj.
  apply net_in; [exact F|]; assert ((nu - 1 - i) * nv + nv <= nu * nv)%nat by nia; nia.
Qed.
Lemma rev_v_3 {A} (Q : list A -> Prop) nu nv P : length P = (nu * nv)%nat -> Forall Q P -> Forall Q (net_rev_v nu nv P).
Proof.
  intros L F; apply rows_forall; intros i Hi; apply in_seq in Hi; apply Forall_rev, Forall_forall; intros x Hx; unfold net_row in Hx; apply in_map_iff in Hx; destruct Hx as (j & <- & Hj); apply in_seq in Hj.
  apply net_in; [exact F|]; nia.
Qed.

Lemma surface_sum_swap U V p q nu nv P c u v : length P = (nu * nv)%nat ->
  surface_sum V U q p nv nu (coords c (net_swap nu nv P)) v u = surface_sum U V p q nu nv (coords c P) u v.
Proof.
  intros L; unfold surface_sum; rewrite zsum_swap; apply zsum_ext; intros i Hi; apply zsum_ext; intros j Hj.
  replace (Z.to_nat (j * Z.of_nat nu + i)) with (Z.to_nat j * nu + Z.to_nat i)%nat by nia; replace (Z.to_nat (i * Z.of_nat nv + j)) with (Z.to_nat i * nv + Z.to_nat j)%nat by nia.
  rewrite !coords_nth by (rewrite ?swap_len; nia); rewrite swap_nth by lia; ring.
Qed.
Lemma surface_sum_rev_u U V p q nu nv P c u v : clamped (Z.of_nat p) (Z.of_nat nu) U -> strict (Z.of_nat p) (Z.of_nat nu) U -> (1 <= p)%nat -> length P = (nu * nv)%nat ->
  kn U (Z.of_nat p) <= u <= kn U (Z.of_nat nu) ->
  surface_sum (mirror U) V p q nu nv (coords c (net_rev_u nu nv P)) (1 - u) v = surface_sum U V p q nu nv (coords c P) u v.
Proof.
  intros HC HS Hp L Hu; rewrite !surface_rows.
  rewrite <- (curve_sum_mirror p (Z.of_nat nu) U _ u); try assumption; [|rewrite map_length, seq_length; reflexivity].
  f_equal; apply nth_ext with (d := 0) (d' := 0); [rewrite rev_length, !map_length; reflexivity|].
  intros i Hi; rewrite map_length, seq_length in Hi; rewrite nth_map_seq0 by exact Hi; rewrite rev_nth by (rewrite map_length, seq_length; exact Hi); rewrite map_length, seq_length, nth_map_seq0 by lia.
  f_equal; apply map_ext_in; intros j Hj; apply in_seq in Hj; rewrite !coords_nth by (rewrite ?rev_u_len; nia); rewrite rev_u_nth by lia; do 3 f_equal; nia.
Qed.
Lemma surface_sum_rev_v U V p q nu nv P c u v : clamped (Z.of_nat q) (Z.of_nat nv) V -> strict (Z.of_nat q) (Z.of_nat nv) V -> (1 <= q)%nat -> length P = (nu * nv)%nat ->
  kn V (Z.of_nat q) <= v <= kn V (Z.of_nat nv) ->
  surface_sum U (mirror V) p q nu nv (coords c (net_rev_v nu nv P)) u (1 - v) = surface_sum U V p q nu nv (coords c P) u v.
Proof.
  intros HC HS Hp L Hv; rewrite !surface_cols.
  rewrite <- (curve_sum_mirror q (Z.of_nat nv) V _ v); try assumption; [|rewrite map_length, seq_length; reflexivity].
  f_equal; apply nth_ext with (d := 0) (d' := 0); [rewrite rev_length, !map_length; reflexivity|].
  intros j Hj; rewrite map_length, seq_length in Hj; rewrite nth_map_seq0 by exact Hj; rewrite rev_nth by (rewrite map_length, seq_length; exact Hj); rewrite map_length, seq_length, nth_map_seq0 by lia.
  f_equal; apply map_ext_in; intros i Hi; apply in_seq in Hi; rewrite !coords_nth by (rewrite ?rev_v_len; nia); rewrite rev_v_nth by lia; do 3 f_equal; nia.
Qed.

Lemma surf_point_symmetry p q nu nv U V P u v : clamped (Z.of_nat p) (Z.of_nat nu) U -> (1 <= p)%nat -> strict (Z.of_nat p) (Z.of_nat nu) U ->
  kn U (Z.of_nat p) = 0 -> kn U (Z.of_nat nu) = 1 -> wide_end (Z.of_nat nu) U -> 1/500000 <= kn U (Z.of_nat p + 1) ->
  clamped (Z.of_nat q) (Z.of_nat nv) V -> (1 <= q)%nat -> strict (Z.of_nat q) (Z.of_nat nv) V -> kn V (Z.of_nat q) = 0 -> kn V (Z.of_nat nv) = 1 -> wide_end (Z.of_nat nv) V -> 1/500000 <= kn V (Z.of_nat q + 1) ->
  Forall (fun row => length row = 3%nat) P -> length P = (nu * nv)%nat -> 0 <= u <= 1 -> 0 <= v <= 1 ->
  exists x, surf_point (surf_of p q nu nv U V P) (Fin u : Exact) (Fin v : Exact) = Ok (fin x) /\ length x = 3%nat /\
    surf_point (surf_of q p nv nu V U (net_swap nu nv P)) (Fin v : Exact) (Fin u : Exact) = Ok (fin x) /\
    surf_point (surf_of p q nu nv (mirror U) V (net_rev_u nu nv P)) (Fin (1 - u) : Exact) (Fin v : Exact) = Ok (fin x) /\
    surf_point (surf_of p q nu nv U (mirror V) (net_rev_v nu nv P)) (Fin u : Exact) (Fin (1 - v) : Exact) = Ok (fin x).
Proof.
  intros CU Hp SU U0 U1 WU MU CV Hq SV V0 V1 WV MV HF HL Hu Hv; exists (surface_xyz U V p q nu nv P u v).
  split; [apply surf_point_wide; assumption|]; split; [reflexivity|]; split; [|split].
  - rewrite surf_point_wide; try assumption; [|apply swap_3; assumption|apply swap_len].
    do 2 f_equal; unfold surface_xyz; apply map_ext; intros c; apply surface_sum_swap; exact HL.
  - rewrite surf_point_wide; try assumption; [|apply mirror_clamped; exact CU|apply mirror_strict; assumption|apply (mirror_start (Z.of_nat p) (Z.of_nat nu)); assumption|apply (mirror_stop (Z.of_nat p) (Z.of_nat nu)); assumption|
      apply (mirror_wide (Z.of_nat p)); assumption|apply rev_u_3; assumption|apply rev_u_len|lra].
    do 2 f_equal; unfold surface_xyz; apply map_ext; intros c; apply surface_sum_rev_u; try assumption; lra.
  - rewrite surf_point_wide; try assumption; [|apply mirror_clamped; exact CV|apply mirror_strict; assumption|apply (mirror_start (Z.of_nat q) (Z.of_nat nv)); assumption|apply (mirror_stop (Z.of_nat q) (Z.of_nat nv)); assumption|
      apply (mirror_wide (Z.of_nat q)); assumption|apply rev_v_3; assumption|apply rev_v_len|lra].
    do 2 f_equal; unfold surface_xyz; apply map_ext; intros c; apply surface_sum_rev_v; try assumption; lra.
Qed.
