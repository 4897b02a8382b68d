(** Interior problems of moved boundaries and data (model: ModelData.v), in exact arithmetic. *)
From Coq Require Import Permutation.
From Verif Require Import Py PyLemmas Num ModelKnots ModelBasis ModelCurve ModelSurface ModelInit ModelParam ModelFit ModelIO ModelData Spec SpecFit SpecParam SpecSmooth SpecWhole MathKnots
  ProofNum ProofSpan ProofSpan2 ProofKnots ProofCurve ProofSurface ProofInit ProofParam6 ProofFit3 ProofFit7 ProofFit9 ProofSmooth3 ProofSmooth5 ProofSmooth7 ProofSmooth8 ProofData3 ProofData5 ProofData7 ProofWhole.
Open Scope R_scope.

Lemma ruled_affine M s T B nu nv : length T = nu -> length B = nu ->
  ruled (map (affine M s) T) (map (affine M s) B) nu nv = map (affine M s) (ruled T B nu nv).
Proof.
  intros LT LB; unfold ruled; rewrite map_map; apply map_ext_in; intros [i j] H; apply in_prod_iff in H; destruct H as [Hi _]; apply in_zrange in Hi.
  unfold ruled_row; cbn [fst snd]; rewrite lerp_affine; rewrite !(nth_indep _ [] (affine M s [])) by (rewrite map_length; lia); rewrite !map_nth; reflexivity.
Qed.

Section Problem.
Variables (sv sv' : solver Exact) (ip ip' : iproblem Exact) (t b t' b' : bproblem Exact) (ct cb ct' cb' : curve_obj Exact)
  (top bot top' bot' : data_array Exact) (p q nu nv : nat) (T B data : list (list R)) (U : list R) (M : nat -> nat -> R) (s : nat -> R).
Hypotheses (HS : least_squares sv) (HS' : least_squares sv')
  (I0 : ip_init ip = None) (It : ip_top ip = Some t) (Ib : ip_bottom ip = Some b) (Id : ip_degree ip = Some (Z.of_nat q)) (In : ip_num ip = Some (Z.of_nat nv))
  (Ia : ip_data ip = Some (mkData 3 (fin2 data))) (FD : Forall (fun r => length r = 3%nat) data)
  (Dt : bp_degree t = Some (Z.of_nat p)) (Db : bp_degree b = Some (Z.of_nat p)) (Nt : bp_num t = Some (Z.of_nat nu)) (Nb : bp_num b = Some (Z.of_nat nu))
  (Ft : bp_fit t = Some ct) (Fb : bp_fit b = Some cb) (Ct : c_ctrl ct = Some (fin2 T)) (Cb : c_ctrl cb = Some (fin2 B)) (Kb : c_kv cb = Some (fin U))
  (Pt : bp_param t = Some top) (Pb : bp_param b = Some bot) (W1 : dt_cols top = 4%Z) (W2 : dt_cols bot = 4%Z)
  (FT : Forall (fun r => length r = 3%nat) T) (FB : Forall (fun r => length r = 3%nat) B) (LT : length T = nu) (LB : length B = nu)
  (Hp : (2 <= p)%nat) (Hq : (2 <= q)%nat) (Hv : (q + 1 <= nv)%nat)
  (CU : clamped (Z.of_nat p) (Z.of_nat nu) U) (SU : strict (Z.of_nat p) (Z.of_nat nu) U) (K0 : kn U (Z.of_nat p) = 0) (K1 : kn U (Z.of_nat nu) = 1)
  (HM : orthogonal M)
  (I0' : ip_init ip' = None) (It' : ip_top ip' = Some t') (Ib' : ip_bottom ip' = Some b') (Id' : ip_degree ip' = Some (Z.of_nat q)) (In' : ip_num ip' = Some (Z.of_nat nv))
  (Ia' : ip_data ip' = Some (mkData 3 (fin2 (map (affine M s) data))))
  (Dt' : bp_degree t' = Some (Z.of_nat p)) (Db' : bp_degree b' = Some (Z.of_nat p)) (Nt' : bp_num t' = Some (Z.of_nat nu)) (Nb' : bp_num b' = Some (Z.of_nat nu))
  (Ft' : bp_fit t' = Some ct') (Fb' : bp_fit b' = Some cb') (Ct' : c_ctrl ct' = Some (fin2 (map (affine M s) T))) (Cb' : c_ctrl cb' = Some (fin2 (map (affine M s) B))) (Kb' : c_kv cb' = Some (fin U))
  (Pt' : bp_param t' = Some top') (Pb' : bp_param b' = Some bot') (W1' : dt_cols top' = 4%Z) (W2' : dt_cols bot' = 4%Z).
Let V := uniform (Z.of_nat q) (Z.of_nat nv).
Hypothesis HE : forall S0 x, init_surface working_surface (Some t) (Some b) (Some (Z.of_nat q)) (Some (Z.of_nat nv)) = Ok S0 ->
  parameterize_surface (beh_of_surf S0) (mkData 3 (fin2 data)) = Ok (fin2 x) -> enough2 p q nu nv U V x.
Lemma ip_pair : let c := ip_fit_run working_surface sv ip in let c' := ip_fit_run working_surface sv' ip' in
  snd c' = snd c /\
  (exists P, ip_init (fst c) = Some (surf_of p q nu nv U V P) /\ ip_init (fst c') = Some (surf_of p q nu nv U V (map (affine M s) P))) /\
  (snd c = Ok tt -> exists Q rows rows', ip_fit (fst c) = Some (surf_of p q nu nv U V Q) /\ ip_fit (fst c') = Some (surf_of p q nu nv U V (map (affine M s) Q)) /\
     ip_param (fst c) = Some (mkData 5 (fin2 rows)) /\ ip_param (fst c') = Some (mkData 5 (fin2 rows')) /\ Permutation rows' (map (moved M s) rows)).
Proof.
  cbv zeta; assert (Hu : (p + 1 <= nu)%nat) by (destruct (clamped_facts _ _ _ CU) as (_ & Hn & _); lia).
  destruct (uniform_tight' q nv ltac:(lia) Hv) as (TV & V0 & V1); fold V in TV, V0, V1.
  assert (SV : strict (Z.of_nat q) (Z.of_nat nv) V) by (apply uniform_strict; lia).
  assert (TU : tight (Z.of_nat p) (Z.of_nat nu) U) by (apply strict_tight; [exact CU|exact SU|lia]).
  set (P := ruled T B nu nv); assert (LP : length P = (nu * nv)%nat) by apply ruled_length; assert (F3 : Forall (fun r => length r = 3%nat) P) by apply ruled_three.
  assert (EI : init_surface working_surface (Some t) (Some b) (Some (Z.of_nat q)) (Some (Z.of_nat nv)) = Ok (surf_of p q nu nv U V P)) by (eapply init_surface_ruled; eauto; lia).
  assert (EI' : init_surface working_surface (Some t') (Some b') (Some (Z.of_nat q)) (Some (Z.of_nat nv)) = Ok (surf_of p q nu nv U V (map (affine M s) P))).
  { unfold P; rewrite <- ruled_affine by assumption; apply (init_surface_ruled t' b' ct' cb'); try assumption; try apply Forall_moved; rewrite ?map_length; assumption || lia. }
  assert (HE' : forall x, parameterize_surface (beh_of_surf (surf_of p q nu nv U V P)) (mkData 3 (fin2 data)) = Ok (fin2 x) -> enough2 p q nu nv U V x) by (intros x; apply HE; exact EI).
  pose proof (surface_pair sv sv' p q nu nv U V P data M s top bot top' bot' HS HS' CU (proj1 TV) SU SV K0 K1 V0 V1 Hp Hq F3 LP FD HM W1 W2 W1' W2' HE') as SP; cbv zeta in SP.
  unfold ip_fit_run; rewrite I0, I0'; unfold ip_set_init; rewrite It, Ib, Id, In, EI, It', Ib', Id', In', EI'.
  cbn [bind finish andthen ip_init ip_data ip_top ip_bottom ip_degree ip_num ip_param ip_fit]; rewrite Ia, Ia', Pt, Pb, Pt', Pb'.
  fold (surf_of p q nu nv U V P) in SP; fold (surf_of p q nu nv U V (map (affine M s) P)) in SP.
  destruct SP as [(e & E1 & E2)|(Q & E1 & E2)].
  - unfold surf_of in *; rewrite E1, E2; cbn [fst snd ip_init]; split; [reflexivity|split; [exists P; split; reflexivity|discriminate]].
  - assert (SQ : length Q = (nu * nv)%nat /\ Forall (fun r => length r = 3%nat) Q).
    { destruct (sparam_outcome p q nu nv U V data TU TV SU SV K0 K1 V0 V1 Hp Hq FD P (conj LP F3)) as [(x & EP & _)|EP].
      - destruct (fit_surface_exact sv p q nu nv U V P data top bot _ HS TU TV K0 K1 V0 V1 LP F3 FD W1 W2 EP) as (pts & Q' & _ & EF' & LQ & FQ & _).
        unfold surf_of in E1; pose proof (eq_trans (eq_sym E1) EF') as X; injection X as X; apply fin2_inj in X; subst Q'; split; [congruence|exact FQ].
      - exfalso; unfold fit_surface in E1; unfold surf_of in EP; rewrite EP in E1; discriminate. }
    destruct SQ as [LQ FQ].
    change (fit_surface sv (surf_of p q nu nv U V P) (mkData 3 (fin2 data)) (Some top) (Some bot) = Ok (surf_of p q nu nv U V Q)) in E1.
    change (fit_surface sv' (surf_of p q nu nv U V (map (affine M s) P)) (mkData 3 (fin2 (map (affine M s) data))) (Some top') (Some bot') = Ok (surf_of p q nu nv U V (map (affine M s) Q))) in E2.
    rewrite E1, E2.
    destruct (parameterize_surface_moved p q nu nv U V Q data M s CU (proj1 TV) SU SV K0 K1 V0 V1 Hp Hq FQ LQ FD HM) as [ME MO].
    unfold ip_parameterize; cbn [ip_init ip_fit ip_data ip_top ip_bottom ip_degree ip_num ip_param parameterize_surface_opt].
    destruct (sparam_outcome p q nu nv U V data TU TV SU SV K0 K1 V0 V1 Hp Hq FD Q (conj LQ FQ)) as [(x & E & _)|E].
    + destruct (MO _ E) as (x0 & x' & E0 & E' & HP); apply fin2_inj in E0; subst x0; rewrite E, E'; cbn [bind finish fst snd ip_init ip_fit ip_param].
      split; [reflexivity|split; [exists P; split; reflexivity|]]; intros _; exists Q, x, x'; split; [reflexivity|split; [reflexivity|split; [reflexivity|split; [reflexivity|exact HP]]]].
    + rewrite E, (ME _ E); cbn [bind finish fst snd ip_init]; split; [reflexivity|split; [exists P; split; reflexivity|discriminate]].
Qed.
End Problem.
