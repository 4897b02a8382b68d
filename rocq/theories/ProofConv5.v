(** Proofs for C119: near a nearest point off the surface the inversion may move
    away, from guesses as close as one likes. *)
From Verif Require Import Py Num ModelKnots ModelCurve ModelSurface ModelParam Spec SpecParam SpecNewton SpecConv ProofNum ProofInit ProofCurve ProofSurface ProofParam ProofParam3 ProofParam5 ProofParam7 ProofParam8 ProofConv ProofConv3 ProofConv4.
From Coq Require Import Lra Lia.
Open Scope R_scope.

(** The channel (u - 1/2, v - 1/2, (u - 1/2)^2). *)
Definition chan (u v : R) : list R := [u - 1/2; v - 1/2; (u - 1/2) * (u - 1/2)].
Definition chan_u (u v : R) : list R := [1; 0; 2 * (u - 1/2)].
Definition chan_v (_ _ : R) : list R := [0; 1; 0].
Definition chan_uu (_ _ : R) : list R := [0; 0; 2].
Definition chan_0 (_ _ : R) : list R := [0; 0; 0].
Definition chan_obj (n : Z) : surf_beh Exact := mkSBeh (K := Exact) n n
  (fun u v => match u, v with Fin a, Fin b => Ok (fin (chan a b)) | _, _ => Ok [] end)
  (fun u v => match u, v with Fin a, Fin b => Ok (fin2 [chan a b; chan_v a b; chan_0 a b; chan_u a b; chan_0 a b; chan_0 a b; chan_uu a b]) | _, _ => Ok [] end).
Lemma chan_proper n : proper_surface (chan_obj n) chan chan_u chan_v chan_uu chan_0 chan_0.
Proof. intros u v Hu Hv; do 7 (split; [reflexivity|]); exists (chan u v), (chan_0 u v), []; reflexivity. Qed.
Definition high : list R := [0; 0; 3/8].
Lemma dist_high u v : distR (chan u v) high = sqrt ((u - 1/2) * (u - 1/2) + (v - 1/2) * (v - 1/2) + ((u - 1/2) * (u - 1/2) - 3/8) * ((u - 1/2) * (u - 1/2) - 3/8)).
Proof. unfold distR, normR, subR, chan, high; cbn [combine map fst snd]; rewrite dot3; f_equal; ring. Qed.
Lemma dist_high' u v : distR high (chan u v) = distR (chan u v) high.
Proof. rewrite dist_high; unfold distR, normR, subR, chan, high; cbn [combine map fst snd]; rewrite dot3; f_equal; ring. Qed.
Lemma chan_nearest u v : distR (chan (1/2) (1/2)) high <= distR (chan u v) high.
Proof.
  rewrite !dist_high; apply sqrt_le_1_alt; set (s := u - 1/2); set (t := v - 1/2); replace (1/2 - 1/2) with 0 by field.
  pose proof (Rle_0_sqr s) as A; pose proof (Rle_0_sqr t) as B; pose proof (Rle_0_sqr (s * s)) as C; unfold Rsqr in A, B, C; lra.
Qed.
Lemma norm_zero3 a b c : normR [a; b; c] <= 0 -> a = 0 /\ b = 0 /\ c = 0.
Proof.
  unfold normR; rewrite dot3; intros H; pose proof (sqrt_pos (a * a + b * b + c * c)) as P.
  assert (E : sqrt (a * a + b * b + c * c) = 0) by lra; apply sqrt_eq_0 in E; [|nra]; repeat split; nra.
Qed.
Lemma not_angle t r : dotR t r <> 0 -> ~ right_angle t r 0.
Proof. intros H [_ L]; rewrite Rmult_0_l in L; pose proof (Rabs_pos_lt _ H); lra. Qed.
Lemma clamp_id x : 0 <= x <= 1 -> clampR x = x.
Proof. intros H; unfold clampR, Rmax, Rmin; destruct (Rle_dec 1 x), (Rle_dec 0 _); lra. Qed.

(** Two steps from the guess (1/2 + g, 1/2 + t). *)
Section Two.
Variables (n : Z) (g t : R).
Hypotheses (Hg : g <> 0) (Hx : g * g <= 1/100) (Ht : Rabs t = Rabs g)
  (HG : initial_guess_surf (chan_obj n) (fin high) = Ok (Fin (1/2 + g) : Exact, Fin (1/2 + t) : Exact)).
Let x := g * g.
Let y := 16 * x / (1 + 24 * x).
Let m := 1/4 + 4 * x + 2 * x * (y * y).
Let z := y - (y + 2 * x * (y * y) - 3/4) / m.
Let xs (k : nat) : R * R := match k with O => (1/2 + g, 1/2 + t) | 1%nat => (1/2 + g * y, 1/2) | _ => (1/2 + g * z, 1/2) end.
Lemma x_pos : 0 < x.
Proof. unfold x; nra. Qed.
Lemma y_range : 0 <= y <= 16/100.
Proof.
  pose proof x_pos; unfold y; split; [apply Rmult_le_pos; [lra|left; apply Rinv_0_lt_compat; lra]|].
  apply Rmult_le_reg_r with (1 + 24 * x); [lra|]; unfold Rdiv at 1; rewrite Rmult_assoc, Rinv_l by lra; unfold x in *; lra.
Qed.
Lemma m_range : 1/4 < m <= 291/1000.
Proof. pose proof x_pos; pose proof y_range; unfold m; assert (0 <= y * y <= 3/100) by nra; assert (x <= 1/100) by exact Hx; split; nra. Qed.
Lemma z_range : 2 <= z <= 4.
Proof.
  pose proof x_pos; pose proof y_range; pose proof m_range; assert (x <= 1/100) by exact Hx; assert (0 <= y * y <= 3/100) by nra.
  assert (P : 0 <= x * (y * y) <= 3/10000) by nra.
  set (a := 3/4 - y - 2 * x * (y * y)); replace z with (y + a / m) by (unfold z, a; field; lra).
  assert (A : 589/1000 <= a <= 3/4) by (unfold a; lra); split.
  - apply Rle_trans with (0 + 2); [lra|]; apply Rplus_le_compat; [lra|]; apply Rmult_le_reg_r with m; [lra|]; unfold Rdiv; rewrite Rmult_assoc, Rinv_l by lra; lra.
  - apply Rle_trans with (16/100 + 3); [|lra]; apply Rplus_le_compat; [lra|]; apply Rmult_le_reg_r with m; [lra|]; unfold Rdiv; rewrite Rmult_assoc, Rinv_l by lra; lra.
Qed.
Lemma g_range : -1/10 <= g <= 1/10.
Proof. split; nra. Qed.
Lemma t_range : -1/10 <= t <= 1/10.
Proof. pose proof g_range; revert Ht; unfold Rabs; repeat destruct Rcase_abs; lra. Qed.
Ltac vec := unfold at2, chan, chan_u, chan_v, chan_uu, chan_0, subR, high; cbn [xs pred combine map fst snd]; rewrite ?dot3.
Lemma step0 : surf_step chan chan_u chan_v chan_uu chan_0 chan_0 high (xs 0) (xs 0) (xs 1).
Proof.
  pose proof x_pos as Px; pose proof y_range; pose proof g_range; pose proof t_range.
  assert (E : 1/2 + g - 1/2 = g) by ring; assert (E' : 1/2 + t - 1/2 = t) by ring.
  split.
  - unfold m_det, m_uu, m_vv, m_uv; vec; rewrite E, E'; fold x; nra.
  - exists (g * y - g), (- t); unfold m_uu, m_vv, m_uv; vec; rewrite E, E'.
    split; [|split].
    + assert (Y : y * (1 + 24 * x) = 16 * x) by (unfold y; field; lra).
      replace (2 * g * (2 * g)) with (4 * x) by (unfold x; ring); fold x.
      transitivity (g * ((1 + 24 * x) * (y - 1) / 4)); [field|]; replace ((1 + 24 * x) * (y - 1) / 4) with ((16 * x - (1 + 24 * x)) / 4) by (rewrite <- Y; field); field.
    + ring.
    + replace (1/2 + g + (g * y - g)) with (1/2 + g * y) by ring; replace (1/2 + t + - t) with (1/2) by field.
      rewrite !clamp_id; [reflexivity|lra|nra].
Qed.
Lemma stay0 : ~ surf_stop chan chan_u chan_v high 0 0 (xs 0) (xs 0) (xs 1).
Proof.
  pose proof x_pos as Px; pose proof y_range; pose proof g_range; assert (E : 1/2 + g - 1/2 = g) by ring; assert (Ey : 1/2 + g * y - 1/2 = g * y) by ring.
  intros [H1|[H1|[H1 _]]].
  - revert H1; vec; intros H1; apply norm_zero3 in H1; destruct H1 as (A & _); nra.
  - revert H1; vec; intros H1; apply norm_zero3 in H1; destruct H1 as (A & _ & B); rewrite Ey in A, B; nra.
  - revert H1; apply not_angle; vec; rewrite E, Ey; intros A.
    assert (B : g * (y + 2 * x * (y * y) - 3/4) = 0) by (rewrite <- A; unfold x; field).
    assert (x <= 1/100) by exact Hx; assert (0 <= y * y <= 3/100) by nra; assert (0 <= x * (y * y) <= 3/10000) by nra.
    apply Rmult_integral in B; destruct B as [B|B]; [exact (Hg B)|lra].
Qed.
Lemma far0 : ~ surf_near (at2 chan_u (xs 0)) (at2 chan_v (xs 0)) (subR (at2 chan (xs 0)) high) 0 0.
Proof.
  pose proof x_pos as Px; assert (E : 1/2 + g - 1/2 = g) by ring.
  intros [H1|[H1 _]].
  - revert H1; vec; intros H1; apply norm_zero3 in H1; destruct H1 as (A & _); lra.
  - revert H1; apply not_angle; vec; rewrite E; intros A.
    assert (B : g * (1/4 + 2 * x) = 0) by (rewrite <- A; unfold x; field).
    apply Rmult_integral in B; destruct B as [B|B]; [exact (Hg B)|lra].
Qed.
Lemma step1 : surf_step chan chan_u chan_v chan_uu chan_0 chan_0 high (xs 0) (xs 1) (xs 2).
Proof.
  pose proof x_pos as Px; pose proof y_range; pose proof g_range; pose proof m_range; pose proof z_range.
  assert (E : 1/2 + g - 1/2 = g) by ring; assert (Ey : 1/2 + g * y - 1/2 = g * y) by ring; assert (Eh : 1/2 - 1/2 = 0) by ring.
  split.
  - unfold m_det, m_uu, m_vv, m_uv; vec; rewrite E, Ey, Eh.
    match goal with |- ?e <> 0 => replace e with m by (unfold m, x; field) end; lra.
  - exists (g * z - g * y), 0; unfold m_uu, m_vv, m_uv; vec; rewrite E, Ey, Eh.
    split; [|split].
    + transitivity (m * (g * (z - y))); [unfold m, x; field|].
      transitivity (- (g * (y + 2 * x * (y * y) - 3/4))); [unfold z; field; lra|unfold x; field].
    + ring.
    + replace (1/2 + g * y + (g * z - g * y)) with (1/2 + g * z) by ring; replace (1/2 + 0) with (1/2) by ring.
      rewrite !clamp_id; [reflexivity|lra|nra].
Qed.
Lemma two_steps : exists u v, surface_inversion (chan_obj n) (fin high) (Fin 0 : Exact) (Fin 0 : Exact) 1 = Ok (Fin u : Exact, Fin v : Exact) /\
  2 * gap (1/2 + g, 1/2 + t) (1/2, 1/2) <= gap (u, v) (1/2, 1/2).
Proof.
  pose proof g_range; pose proof t_range; pose proof z_range.
  destruct (surf_trace (chan_obj n) chan chan_u chan_v chan_uu chan_0 chan_0 high 0 0 (chan_proper n) eq_refl 1 xs) as [_ T]; [cbn [xs fst snd]; lra|exact HG|].
  exists (1/2 + g * z), (1/2); split.
  - change 1%Z with (Z.of_nat 1); change (Fin (1/2 + g * z) : Exact, Fin (1/2) : Exact) with (Fin (fst (xs 2)) : Exact, Fin (snd (xs 2)) : Exact).
    apply (T far0 1%nat (le_n _)).
    + intros i Hi; replace i with 0%nat by lia; split; [exact step0|exact stay0].
    + exact step1.
    + right; reflexivity.
  - unfold gap; cbn [fst snd].
    replace (1/2 + g - 1/2) with g by ring; replace (1/2 + t - 1/2) with t by ring; replace (1/2 + g * z - 1/2) with (g * z) by ring.
    rewrite Ht, (Rmax_left (Rabs g) (Rabs g)) by lra.
    apply Rle_trans with (Rabs (g * z)); [|apply Rmax_l]; rewrite Rabs_mult, (Rabs_pos_eq z), Rmult_comm by lra.
    apply Rmult_le_compat_l; [apply Rabs_pos|lra].
Qed.
End Two.

Lemma centre_dist (n k : Z) : (1 <= n)%Z -> IZR k / IZR (2 * n - 1) - 1/2 = IZR (2 * k - (2 * n - 1)) / (2 * IZR (2 * n - 1)).
Proof.
  intros Hn; assert (0 < IZR (2 * n - 1)) by (apply IZR_lt; lia); rewrite (minus_IZR (2 * k) (2 * n - 1)), (mult_IZR 2 k).
  set (N := IZR (2 * n - 1)) in *; field; lra.
Qed.
Lemma odd_sq (k : Z) n : (1 <= n)%Z -> 1 <= IZR (2 * k - (2 * n - 1)) * IZR (2 * k - (2 * n - 1)).
Proof. intros _; rewrite <- mult_IZR; apply IZR_le; assert (2 * k - (2 * n - 1) <> 0)%Z by lia; set (w := (2 * k - (2 * n - 1))%Z) in *; nia. Qed.
Lemma chan_guess n : (1 <= n)%Z -> exists g t, g <> 0 /\ Rabs g = 1 / (2 * IZR (2 * n - 1)) /\ Rabs t = Rabs g /\
  initial_guess_surf (chan_obj n) (fin high) = Ok (Fin (1/2 + g) : Exact, Fin (1/2 + t) : Exact).
Proof.
  intros Hn; set (N := IZR (2 * n - 1)); assert (HN : 1 <= N) by (apply IZR_le; lia).
  destruct (initial_guess_surf_spec (chan_obj n) high (fun i j => chan (IZR i / N) (IZR j / N)) n n eq_refl eq_refl Hn Hn) as (k & l & Hk & Hl & EG & HB & _).
  { intros i j Hi Hj; split; reflexivity. }
  assert (C : forall i, IZR i / N - 1/2 = IZR (2 * i - (2 * n - 1)) / (2 * N)) by (intros i; apply centre_dist; exact Hn).
  assert (O : forall i, / (2 * N) * / (2 * N) <= (IZR i / N - 1/2) * (IZR i / N - 1/2)).
  { intros i; rewrite C; pose proof (odd_sq i n Hn) as O; set (a := IZR (2 * i - (2 * n - 1))) in *.
    assert (0 < / (2 * N)) by (apply Rinv_0_lt_compat; lra); unfold Rdiv.
    replace (a * / (2 * N) * (a * / (2 * N))) with (a * a * (/ (2 * N) * / (2 * N))) by ring.
    rewrite <- (Rmult_1_l (/ (2 * N) * / (2 * N))) at 1; apply Rmult_le_compat_r; [nra|exact O]. }
  destruct HB as [HB _].
  { exists (n - 1)%Z, (n - 1)%Z; split; [lia|]; split; [lia|]; rewrite dist_high', dist_high, !C.
    replace (2 * (n - 1) - (2 * n - 1))%Z with (-1)%Z by lia.
    assert (A : 0 < / (2 * N) <= 1/2) by (split; [apply Rinv_0_lt_compat; lra|apply Rmult_le_reg_r with (2 * N); [lra|]; rewrite Rinv_l by lra; lra]).
    apply Rle_lt_trans with (sqrt 1); [|rewrite sqrt_1; lra]; apply sqrt_le_1_alt; unfold Rdiv; set (b := / (2 * N)) in *.
    replace (-1 * b * (-1 * b)) with (b * b) by ring; assert (0 <= b * b <= 1/4) by nra; nra. }
  specialize (HB (n - 1)%Z (n - 1)%Z ltac:(lia) ltac:(lia)); rewrite !dist_high', !dist_high in HB.
  assert (Ctr : (IZR (n - 1) / N - 1/2) * (IZR (n - 1) / N - 1/2) = / (2 * N) * / (2 * N)).
  { rewrite C; replace (2 * (n - 1) - (2 * n - 1))%Z with (-1)%Z by lia; unfold Rdiv; ring. }
  rewrite Ctr in HB; pose proof (O k) as Ok_; pose proof (O l) as Ol.
  set (a := IZR k / N - 1/2) in *; set (c := IZR l / N - 1/2) in *; set (b := / (2 * N)) in *.
  assert (Hb : 0 < b <= 1/2) by (unfold b; split; [apply Rinv_0_lt_compat; lra|apply Rmult_le_reg_r with (2 * N); [lra|]; rewrite Rinv_l by lra; lra]).
  apply sqrt_le_0 in HB; [|nra|nra].
  assert (Ea : a * a = b * b) by nra.
  assert (Ec : c * c = b * b) by nra.
  assert (Ab : forall w, w * w = b * b -> Rabs w = b).
  { intros w E; rewrite <- (Rabs_pos_eq b) by lra; apply Rsqr_eq_abs_0; exact E. }
  exists a, c; split; [intros E; rewrite E in Ea; nra|]; split; [rewrite (Ab a Ea); unfold b, Rdiv; ring|]; split; [rewrite (Ab a Ea), (Ab c Ec); reflexivity|].
  rewrite EG; do 2 f_equal; f_equal; [unfold a|unfold c]; fold N; ring.
Qed.
Lemma moves_away : (forall u v, distR (chan (1/2) (1/2)) high <= distR (chan u v) high) /\
  m_det chan chan_u chan_v chan_uu chan_0 chan_0 high (1/2, 1/2) (1/2, 1/2) <> 0 /\
  forall del, 0 < del -> exists s x y u v, proper_surface s chan chan_u chan_v chan_uu chan_0 chan_0 /\
    initial_guess_surf s (fin high) = Ok (Fin x : Exact, Fin y : Exact) /\ 0 < gap (x, y) (1/2, 1/2) <= del /\
    surface_inversion s (fin high) (Fin 0 : Exact) (Fin 0 : Exact) 1 = Ok (Fin u : Exact, Fin v : Exact) /\
    2 * gap (x, y) (1/2, 1/2) <= gap (u, v) (1/2, 1/2).
Proof.
  split; [exact chan_nearest|]; split.
  - unfold m_det, m_uu, m_vv, m_uv, at2, chan, chan_u, chan_v, chan_uu, chan_0, subR, high; cbn [combine map fst snd]; rewrite !dot3; lra.
  - intros del Hdel; destruct (archimed (/ del)) as [A _].
    set (n := (Z.max 0 (up (/ del)) + 6)%Z); assert (Hn : (6 <= n)%Z) by (unfold n; lia).
    assert (HN : / del < IZR (2 * n - 1) /\ 11 <= IZR (2 * n - 1)).
    { split; [eapply Rlt_le_trans; [exact A|]; apply IZR_le; unfold n; lia|apply IZR_le; lia]. }
    destruct (chan_guess n ltac:(lia)) as (g & t & Hg & Eg & Et & EG).
    set (N := IZR (2 * n - 1)) in *.
    assert (Gd : Rabs g <= del).
    { rewrite Eg; destruct HN as [HN1 HN2]; apply Rmult_le_reg_r with (2 * N); [lra|]; unfold Rdiv; rewrite Rmult_assoc, Rinv_l by lra.
      assert (D : / del * del = 1) by (apply Rinv_l; lra).
      assert (1 <= N * del) by (rewrite <- D; apply Rmult_le_compat_r; lra); lra. }
    assert (G10 : g * g <= 1/100).
    { rewrite <- (Rabs_pos_eq (g * g)) by nra; rewrite Rabs_mult, Eg.
      assert (0 < 1 / (2 * N) <= 1/22).
      { unfold Rdiv; rewrite !Rmult_1_l; split; [apply Rinv_0_lt_compat; lra|apply Rinv_le_contravar; lra]. }
      nra. }
    destruct (two_steps n g t Hg G10 Et EG) as (u & v & E & G).
    exists (chan_obj n), (1/2 + g), (1/2 + t), u, v; split; [apply chan_proper|]; split; [exact EG|]; split; [|split; [exact E|exact G]].
    unfold gap; cbn [fst snd]; replace (1/2 + g - 1/2) with g by ring; replace (1/2 + t - 1/2) with t by ring; rewrite Et, Rmax_left by lra.
    split; [apply Rabs_pos_lt; exact Hg|exact Gd].
Qed.
