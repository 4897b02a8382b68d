(** Outcomes of interior fits (model: ModelData.v), in exact arithmetic. *)
From Coq Require Import Permutation.
From Verif Require Import Py PyLemmas Num ModelKnots ModelBasis ModelCurve ModelSurface ModelInit ModelParam ModelFit ModelIO ModelData Spec SpecFit SpecParam SpecData MathKnots
  ProofNum ProofSpan ProofSpan2 ProofKnots ProofCurve ProofSurface ProofInit ProofParam ProofParam4 ProofFit ProofFit5 ProofFit6 ProofFit7 ProofFit8
  ProofData ProofData3 ProofData5 ProofParam5 ProofParam6 ProofFit9.
Open Scope R_scope.

Lemma Forall2_len {A B} (R : A -> B -> Prop) l m : Forall2 R l m -> length m = length l.
Proof. induction 1; cbn; congruence. Qed.
Section Surfaces.
Variables (p q nu nv : nat) (U V : list R) (data : list (list R)).
Hypotheses (TU : tight (Z.of_nat p) (Z.of_nat nu) U) (TV : tight (Z.of_nat q) (Z.of_nat nv) V)
  (SU : strict (Z.of_nat p) (Z.of_nat nu) U) (SV : strict (Z.of_nat q) (Z.of_nat nv) V)
  (U0 : kn U (Z.of_nat p) = 0) (U1 : kn U (Z.of_nat nu) = 1) (V0 : kn V (Z.of_nat q) = 0) (V1 : kn V (Z.of_nat nv) = 1)
  (Hp : (2 <= p)%nat) (Hq : (2 <= q)%nat) (HD : Forall (fun r => length r = 3%nat) data).
Definition net3 (P : list (list R)) : Prop := length P = (nu * nv)%nat /\ Forall (fun r => length r = 3%nat) P.
Definition param5 (pts : list (list R)) : Prop :=
  length pts = length data /\ Forall (fun r => length r = 5%nat /\ 0 <= nth 3 r 0 <= 1 /\ 0 <= nth 4 r 0 <= 1) pts.
Lemma sparam_rows P out : parameterize_surface (beh_of_surf (surf_of p q nu nv U V P)) (mkData 3 (fin2 data)) = Ok out ->
  exists uvs pts, Forall2 (fun r uv => surface_inversion (beh_of_surf (surf_of p q nu nv U V P)) (fin r) lit_1em5 lit_1em5 100 = Ok (Fin (fst uv) : Exact, Fin (snd uv) : Exact) /\
       0 <= fst uv <= 1 /\ 0 <= snd uv <= 1) data uvs /\
    out = fin2 pts /\ Permutation pts (map (fun t => fst t ++ [fst (snd t); snd (snd t)]) (combine data uvs)) /\ param5 pts.
Proof.
  intros E; destruct (parameterize_surface_sorted (beh_of_surf (surf_of p q nu nv U V P)) data out HD) as (uvs & pts & HI & -> & HPm & _); [| |exact E|].
  - intros u v m0; apply surf_point_unit.
  - intros u v m0; apply surf_derivatives_width.
  - exists uvs, pts; split; [exact HI|]; split; [reflexivity|]; split; [exact HPm|]; split.
    + rewrite (Permutation_length HPm), map_length, combine_length, (Forall2_len _ _ _ HI); lia.
    + apply Forall_forall; intros r Hr; apply (Permutation_in _ HPm) in Hr; apply in_map_iff in Hr; destruct Hr as ([a b] & <- & Hab); cbn [fst snd].
      pose proof (proj1 (Forall_forall _ _) HD a (in_combine_l _ _ _ _ Hab)) as La; cbn beta in La.
      assert (HB : 0 <= fst b <= 1 /\ 0 <= snd b <= 1).
      { clear -HI Hab; revert uvs HI Hab; induction data as [|r rows IH]; intros uvs HI Hab; [contradiction|].
        inversion HI as [|? ? ? ? (_ & H) HI']; subst; destruct Hab as [H'|H']; [injection H' as _ <-; exact H|eapply IH; eauto]. }
      destruct a as [|a0 [|a1 [|a2 [|]]]]; try discriminate; split; [reflexivity|exact HB].
Qed.
Lemma sparam_outcome P : net3 P ->
  (exists pts, parameterize_surface (beh_of_surf (surf_of p q nu nv U V P)) (mkData 3 (fin2 data)) = Ok (fin2 pts) /\ param5 pts) \/
  parameterize_surface (beh_of_surf (surf_of p q nu nv U V P)) (mkData 3 (fin2 data)) = Err LinAlgError.
Proof.
  intros (LP & F3).
  destruct (parameterize_surface_outcome (beh_of_surf (surf_of p q nu nv U V P)) data LinAlgError HD) as [(out & E)|(E & _)].
  - intros r Hr; destruct (surface_inversion_outcome p q nu nv U V P (proj1 TU) (proj1 TV) SU SV U0 U1 V0 V1 Hp Hq F3 LP r lit_1em5 lit_1em5 100) as [(u & v & _ & _ & E)|(E & _)];
      [apply (proj1 (Forall_forall _ _) HD r Hr)|lia|left; eexists; exact E|right; exact E].
  - left; destruct (sparam_rows P out E) as (uvs & pts & _ & -> & _ & H); exists pts; split; [exact E|exact H].
  - right; exact E.
Qed.

(** ** Data that are samples of the surface *)
Hypotheses (Bu : (Z.of_nat nu <= 490000)%Z) (Bv : (Z.of_nat nv <= 490000)%Z).
Let su (k : Z) : R := IZR k / IZR (2 * Z.of_nat nu - 1).
Let sw (k : Z) : R := IZR k / IZR (2 * Z.of_nat nv - 1).
Lemma sample_far n k x : (1 <= n <= 490000)%Z -> (0 <= k < 2 * n)%Z -> x <= 1 ->
  close (1/1000000) (1/100000000) (IZR k / IZR (2 * n - 1)) 1 -> x <= IZR k / IZR (2 * n - 1).
Proof.
  intros Hn Hk Hx HC; assert (D : 0 < IZR (2 * n - 1)) by (apply IZR_lt; lia).
  destruct (Z.eq_dec k (2 * n - 1)) as [->|Hne]; [unfold Rdiv; rewrite Rinv_r by lra; exact Hx|exfalso].
  unfold close in HC; rewrite (Rabs_right 1) in HC by lra.
  assert (A : IZR k <= IZR (2 * n - 1) - 1) by (rewrite <- minus_IZR; apply IZR_le; lia).
  assert (B : IZR (2 * n - 1) <= 980000) by (apply IZR_le; lia).
  assert (E : IZR k / IZR (2 * n - 1) - 1 = - ((IZR (2 * n - 1) - IZR k) / IZR (2 * n - 1))) by (field; lra).
  rewrite E, Rabs_Ropp in HC.
  assert (L : 1 / 980000 <= (IZR (2 * n - 1) - IZR k) / IZR (2 * n - 1)).
  { unfold Rdiv; apply Rmult_le_compat; try lra; apply Rinv_le_contravar; lra. }
  rewrite Rabs_right in HC by lra; lra.
Qed.
Lemma nuv_pos : (1 <= Z.of_nat nu)%Z /\ (1 <= Z.of_nat nv)%Z.
Proof. destruct TU as (((? & ? & _) & _) & _); destruct TV as (((? & ? & _) & _) & _); lia. Qed.
Lemma sample_point P i j : net3 P -> (0 <= i < 2 * Z.of_nat nu)%Z -> (0 <= j < 2 * Z.of_nat nv)%Z ->
  surf_point (surf_of p q nu nv U V P) (Fin (su i) : Exact) (Fin (sw j) : Exact) = Ok (fin (surface_xyz U V p q nu nv P (su i) (sw j))).
Proof.
  intros (LP & F3) Hi Hj; destruct nuv_pos as [Nu Nv]; destruct TU as (CU & _ & LU); destruct TV as (CV & _ & LV).
  apply surf_point_strict; try assumption; try lia; try (apply samples_range; lia).
  - apply sample_far; try lia; lra.
  - apply sample_far; try lia; lra.
Qed.
Definition ssampled (P : list (list R)) : Prop := net3 P /\
  forall r, In r data -> exists i j, (0 <= i < 2 * Z.of_nat nu)%Z /\ (0 <= j < 2 * Z.of_nat nv)%Z /\ surface_xyz U V p q nu nv P (su i) (sw j) = r.
Lemma ssampled_param P : ssampled P ->
  exists pts, parameterize_surface (beh_of_surf (surf_of p q nu nv U V P)) (mkData 3 (fin2 data)) = Ok (fin2 pts) /\
    param5 pts /\ surface_err U V p q nu nv P pts = 0 /\
    forall r, In r data -> exists i j, (0 <= i < 2 * Z.of_nat nu)%Z /\ (0 <= j < 2 * Z.of_nat nv)%Z /\
      surface_xyz U V p q nu nv P (su i) (sw j) = r /\ In (r ++ [su i; sw j]) pts.
Proof.
  intros (HN & HK).
  assert (HIT : forall r, In r data -> exists i j, (0 <= i < 2 * Z.of_nat nu)%Z /\ (0 <= j < 2 * Z.of_nat nv)%Z /\ surface_xyz U V p q nu nv P (su i) (sw j) = r /\
     surface_inversion (beh_of_surf (surf_of p q nu nv U V P)) (fin r) lit_1em5 lit_1em5 100 = Ok (Fin (su i) : Exact, Fin (sw j) : Exact)).
  { intros r Hr; destruct (HK r Hr) as (i & j & Hi & Hj & EK).
    destruct (surface_inversion_hit p q nu nv U V P (proj1 TU) (proj1 TV) SU SV U0 U1 V0 V1 Hp Hq (proj2 HN) (proj1 HN) r (1/100000) lit_1em5 100 i j) as (k & l & Hk & Hl & ES & EI);
      try assumption; try lra; [apply (proj1 (Forall_forall _ _) HD r Hr)| |].
    - pose proof (sample_point P i j HN Hi Hj) as E; unfold su, sw in E, EK; rewrite E; unfold su, sw; rewrite EK; reflexivity.
    - fold (su k) in ES, EI; fold (sw l) in ES, EI; exists k, l; split; [exact Hk|]; split; [exact Hl|].
      rewrite sample_point in ES by assumption; apply ok_inj, fin_inj in ES; split; [exact ES|]; rewrite E_1em5 at 1; exact EI. }
  destruct (parameterize_surface_outcome (beh_of_surf (surf_of p q nu nv U V P)) data LinAlgError HD) as [(out & E)|(_ & r & Hr & F)].
  - intros r Hr; destruct (HIT r Hr) as (i & j & _ & _ & _ & EI); left; eexists; exact EI.
  - destruct (sparam_rows P out E) as (uvs & pts & HI & -> & HPm & H5).
    assert (HU : Forall2 (fun r uv => exists i j, (0 <= i < 2 * Z.of_nat nu)%Z /\ (0 <= j < 2 * Z.of_nat nv)%Z /\ surface_xyz U V p q nu nv P (su i) (sw j) = r /\ uv = (su i, sw j)) data uvs).
    { clear -HI HIT; revert uvs HI; induction data as [|r rows IH]; intros uvs HI; inversion HI as [|? uv ? ? (EI & _) HI']; subst; constructor.
      - destruct (HIT r ltac:(left; reflexivity)) as (i & j & Hi & Hj & EX & EJ); rewrite EI in EJ; exists i, j.
        do 3 (split; [assumption|]); destruct uv; cbn [fst snd] in EJ; congruence.
      - apply IH; [intros; apply HIT; right; assumption|assumption]. }
    assert (HP : forall r uv, In (r, uv) (combine data uvs) -> exists i j, (0 <= i < 2 * Z.of_nat nu)%Z /\ (0 <= j < 2 * Z.of_nat nv)%Z /\
              surface_xyz U V p q nu nv P (su i) (sw j) = r /\ uv = (su i, sw j)).
    { clear -HU; revert uvs HU; induction data as [|r rows IH]; intros uvs HU r' uv Hin; inversion HU; subst; [contradiction|].
      destruct Hin as [Hin|Hin]; [injection Hin as <- <-; assumption|eapply IH; eauto]. }
    exists pts; split; [exact E|]; split; [exact H5|]; split.
    + unfold surface_err; assert (A0 : Forall (fun x => x = 0) (map (fun r => point_err (surface_xyz U V p q nu nv P (nth 3 r 0) (nth 4 r 0)) r) pts)).
      { apply Forall_forall; intros y Hy; apply in_map_iff in Hy; destruct Hy as (x & <- & Hx); apply (Permutation_in _ HPm) in Hx; apply in_map_iff in Hx.
        destruct Hx as ([r uv] & <- & Hx); destruct (HP r uv Hx) as (i & j & _ & _ & EX & ->); cbn [fst snd].
        pose proof (proj1 (Forall_forall _ _) HD r (in_combine_l _ _ _ _ Hx)) as Lr; cbn beta in Lr.
        destruct r as [|r0 [|r1 [|r2 [|]]]]; try discriminate Lr; cbn [app nth]; rewrite EX; unfold point_err; cbn; ring. }
      clear -A0; induction A0; cbn; lra.
    + intros r Hr; assert (IR : exists uv, In (r, uv) (combine data uvs)).
      { clear -HU Hr; revert uvs HU Hr; induction data as [|r' rows IH]; intros uvs HU Hr; [contradiction|]; inversion HU as [|? uv ? uvs' _ HU']; subst.
        destruct Hr as [->|Hr]; [exists uv; left; reflexivity|destruct (IH uvs' HU' Hr) as (w & Hw); exists w; right; exact Hw]. }
      destruct IR as (uv & IR); destruct (HP r uv IR) as (i & j & Hi & Hj & EX & ->); exists i, j; do 3 (split; [assumption|]).
      apply (Permutation_in _ (Permutation_sym HPm)); apply in_map_iff; exists (r, (su i, sw j)); split; [reflexivity|exact IR].
  - exfalso; destruct (HIT r Hr) as (i & j & _ & _ & _ & EI); rewrite EI in F; discriminate.
Qed.
Lemma ssampled_fit sv P top bot : least_squares sv -> dt_cols top = 4%Z -> dt_cols bot = 4%Z -> ssampled P ->
  exists Q, fit_surface sv (surf_of p q nu nv U V P) (mkData 3 (fin2 data)) (Some top) (Some bot) = Ok (surf_of p q nu nv U V Q) /\ ssampled Q.
Proof.
  intros HS Ht Hb SP; destruct (ssampled_param P SP) as (pts & EP & H5 & EZ & HI); destruct SP as ((LP & F3) & HK).
  destruct (fit_surface_exact sv p q nu nv U V P data top bot (fin2 pts) HS TU TV U0 U1 V0 V1 LP F3 HD Ht Hb EP) as (pts' & Q & Eo & EF & LQ & FQ & _ & HO).
  apply fin2_inj in Eo; subst pts'; exists Q; split; [exact EF|].
  assert (LE : surface_err U V p q nu nv Q pts <= 0) by (rewrite <- EZ; apply HO; [reflexivity|reflexivity]).
  assert (Z0 : Forall (fun x => x = 0) (map (fun r => point_err (surface_xyz U V p q nu nv Q (nth 3 r 0) (nth 4 r 0)) r) pts)).
  { apply sum_zero; [|exact LE]; apply Forall_forall; intros y Hy; apply in_map_iff in Hy; destruct Hy as (x & <- & _); apply point_err_nonneg. }
  split; [split; [congruence|exact FQ]|]; intros r Hr; destruct (HI r Hr) as (i & j & Hi & Hj & _ & Hin); exists i, j; split; [exact Hi|]; split; [exact Hj|].
  rewrite Forall_forall in Z0; specialize (Z0 _ (in_map (fun r => point_err (surface_xyz U V p q nu nv Q (nth 3 r 0) (nth 4 r 0)) r) _ _ Hin)); cbn beta in Z0.
  pose proof (proj1 (Forall_forall _ _) HD r Hr) as Lr; cbn beta in Lr.
  destruct r as [|r0 [|r1 [|r2 [|]]]]; try discriminate Lr; cbn [app nth] in Z0.
  apply (list3_ext p Hp); [reflexivity|reflexivity|]; intros c Hc; pose proof (point_err_zero p Hp _ _ Z0 c Hc) as E; rewrite E; destruct c as [|[|[|]]]; reflexivity || lia.
Qed.
End Surfaces.

(** ** Interior problems *)
Section Problem.
Variables (sv : solver Exact) (ip : iproblem Exact) (t b : bproblem Exact) (ct cb : curve_obj Exact) (p q nu nv : nat) (T B : list (list R)) (U : list R)
  (data : list (list R)) (top bot : data_array Exact).
Hypotheses (HS : least_squares sv) (I0 : ip_init ip = None) (It : ip_top ip = Some t) (Ib : ip_bottom ip = Some b)
  (Id : ip_degree ip = Some (Z.of_nat q)) (In' : ip_num ip = Some (Z.of_nat nv)) (Ia : ip_data ip = Some (mkData 3 (fin2 data)))
  (FD : Forall (fun r => length r = 3%nat) data)
  (Dt : bp_degree t = Some (Z.of_nat p)) (Db : bp_degree b = Some (Z.of_nat p))
  (Nt : bp_num t = Some (Z.of_nat nu)) (Nb : bp_num b = Some (Z.of_nat nu))
  (Ft : bp_fit t = Some ct) (Fb : bp_fit b = Some cb) (Ct : c_ctrl ct = Some (fin2 T)) (Cb : c_ctrl cb = Some (fin2 B)) (Kb : c_kv cb = Some (fin U))
  (FT : Forall (fun r => length r = 3%nat) T) (FB : Forall (fun r => length r = 3%nat) B) (LT : length T = nu) (LB : length B = nu)
  (Pt : bp_param t = Some top) (Pb : bp_param b = Some bot) (Wt : dt_cols top = 4%Z) (Wb : dt_cols bot = 4%Z)
  (Hp : (2 <= p)%nat) (Hq : (2 <= q)%nat) (Hv : (q + 1 <= nv)%nat)
  (TU : tight (Z.of_nat p) (Z.of_nat nu) U) (SU : strict (Z.of_nat p) (Z.of_nat nu) U) (K0 : kn U (Z.of_nat p) = 0) (K1 : kn U (Z.of_nat nu) = 1).
Let V := uniform (Z.of_nat q) (Z.of_nat nv).
Let P := ruled T B nu nv.
Lemma Hu : (p + 1 <= nu)%nat.
Proof. destruct (clamped_facts _ _ _ (proj1 TU)) as (_ & Hn & _); lia. Qed.
Lemma ip_init_eq : init_surface working_surface (Some t) (Some b) (Some (Z.of_nat q)) (Some (Z.of_nat nv)) = Ok (surf_of p q nu nv U V P).
Proof. pose proof Hu; eapply init_surface_ruled; eauto; lia. Qed.
Lemma V_facts : tight (Z.of_nat q) (Z.of_nat nv) V /\ strict (Z.of_nat q) (Z.of_nat nv) V /\ kn V (Z.of_nat q) = 0 /\ kn V (Z.of_nat nv) = 1.
Proof. exact (uniform_data q (Z.of_nat nv) ltac:(lia) ltac:(lia)). Qed.
Let ip1 fit par := mkIP (ip_degree ip) (ip_data ip) (ip_num ip) (ip_top ip) (ip_bottom ip) (Some (surf_of p q nu nv U V P)) par fit.
Lemma ip_run_eq : ip_fit_run working_surface sv ip =
  match fit_surface sv (surf_of p q nu nv U V P) (mkData 3 (fin2 data)) (Some top) (Some bot) with
  | Ok S1 => match parameterize_surface (beh_of_surf S1) (mkData 3 (fin2 data)) with
            | Ok rows => (ip1 (Some S1) (Some (mkData 5 rows)), Ok tt)
            | Err x => (ip1 (Some S1) (ip_param ip), Err x)
            | Diverge => (ip1 (Some S1) (ip_param ip), Diverge)
            end
  | Err x => (ip1 (ip_fit ip) (ip_param ip), Err x)
  | Diverge => (ip1 (ip_fit ip) (ip_param ip), Diverge)
  end.
Proof.
  unfold ip_fit_run; rewrite I0; unfold ip_set_init; rewrite It, Ib, Id, In', ip_init_eq.
  cbn [bind finish andthen ip_init ip_data ip_top ip_bottom ip_degree ip_num ip_param ip_fit]; rewrite Ia, Pt, Pb.
  unfold ip1; rewrite It, Ib, Id, In', Ia.
  destruct (fit_surface sv (surf_of p q nu nv U V P) (mkData 3 (fin2 data)) (Some top) (Some bot)) as [S|e|] eqn:EF; try reflexivity.
  unfold ip_parameterize; cbn [ip_init ip_fit ip_data ip_top ip_bottom ip_degree ip_num ip_param parameterize_surface_opt].
  destruct (parameterize_surface (beh_of_surf S) (mkData 3 (fin2 data))); reflexivity.
Qed.
Lemma ip_outcome : snd (ip_fit_run working_surface sv ip) = Ok tt \/ snd (ip_fit_run working_surface sv ip) = Err LinAlgError.
Proof.
  destruct V_facts as (TV & SV & V0 & V1); rewrite ip_run_eq.
  assert (NP : net3 nu nv P) by (split; [apply ruled_length|apply ruled_three]).
  destruct (sparam_outcome p q nu nv U V data TU TV SU SV K0 K1 V0 V1 Hp Hq FD P NP) as [(pts & EP & _)|EP].
  - destruct (fit_surface_exact sv p q nu nv U V P data top bot (fin2 pts) HS TU TV K0 K1 V0 V1 (proj1 NP) (proj2 NP) FD Wt Wb EP) as (pts' & Q & _ & EF & LQ & FQ & _).
    change (mkSurf (K := Exact) (Z.of_nat p) (Z.of_nat q) (Z.of_nat nu) (Z.of_nat nv) (fin2 P) (fin U) (fin V)) with (surf_of p q nu nv U V P) in EF.
    rewrite EF; change (mkSurf (Z.of_nat p) (Z.of_nat q) (Z.of_nat nu) (Z.of_nat nv) (fin2 Q : list (list Exact)) (fin U) (fin V)) with (surf_of p q nu nv U V Q).
    assert (NQ : net3 nu nv Q) by (split; [rewrite LQ; apply NP|exact FQ]).
    destruct (sparam_outcome p q nu nv U V data TU TV SU SV K0 K1 V0 V1 Hp Hq FD Q NQ) as [(pts1 & EP1 & _)|EP1]; rewrite EP1; [left|right]; reflexivity.
  - right; unfold fit_surface; rewrite EP; reflexivity.
Qed.
Lemma ip_sampled : (Z.of_nat nu <= 490000)%Z -> (Z.of_nat nv <= 490000)%Z ->
  (forall S0 r, init_surface working_surface (Some t) (Some b) (Some (Z.of_nat q)) (Some (Z.of_nat nv)) = Ok S0 -> In r data ->
     exists i j, (0 <= i < 2 * Z.of_nat nu)%Z /\ (0 <= j < 2 * Z.of_nat nv)%Z /\
       surf_point S0 (Fin (IZR i / IZR (2 * Z.of_nat nu - 1)) : Exact) (Fin (IZR j / IZR (2 * Z.of_nat nv - 1)) : Exact) = Ok (fin r)) ->
  exists ip' S rows, ip_fit_run working_surface sv ip = (ip', Ok tt) /\ ip_fit ip' = Some S /\ ip_param ip' = Some (mkData 5 (fin2 rows)) /\
    length rows = length data /\
    (forall r, In r data -> exists u v, 0 <= u <= 1 /\ 0 <= v <= 1 /\ surf_point S (Fin u : Exact) (Fin v : Exact) = Ok (fin r) /\ In (r ++ [u; v]) rows).
Proof.
  intros Bu Bv HK; destruct V_facts as (TV & SV & V0 & V1).
  assert (NP : net3 nu nv P) by (split; [apply ruled_length|apply ruled_three]).
  assert (SP : ssampled p q nu nv U V data P).
  { split; [exact NP|]; intros r Hr; destruct (HK _ r ip_init_eq Hr) as (i & j & Hi & Hj & E); exists i, j; split; [exact Hi|]; split; [exact Hj|].
    rewrite (sample_point p q nu nv U V TU TV SU SV K0 K1 V0 V1 Hp Hq Bu Bv P i j NP Hi Hj) in E; apply ok_inj, fin_inj in E; exact E. }
  destruct (ssampled_fit p q nu nv U V data TU TV SU SV K0 K1 V0 V1 Hp Hq FD Bu Bv sv P top bot HS Wt Wb SP) as (Q & EF & SQ).
  destruct (ssampled_param p q nu nv U V data TU TV SU SV K0 K1 V0 V1 Hp Hq FD Bu Bv Q SQ) as (rows & EP & (LR & _) & _ & HI).
  rewrite ip_run_eq, EF, EP; eexists; exists (surf_of p q nu nv U V Q), rows; split; [reflexivity|]; split; [reflexivity|]; split; [reflexivity|]; split; [exact LR|].
  intros r Hr; destruct (HI r Hr) as (i & j & Hi & Hj & EX & Hin); pose proof Hu.
  eexists; eexists; split; [|split; [|split; [|exact Hin]]]; try (apply samples_range; lia).
  rewrite (sample_point p q nu nv U V TU TV SU SV K0 K1 V0 V1 Hp Hq Bu Bv Q i j (proj1 SQ) Hi Hj); do 2 f_equal; exact EX.
Qed.
End Problem.
