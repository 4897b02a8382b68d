(** More about problem objects: what each assignment accepts, what a fit depends on. *)
From Coq Require Import String Reals.
From Verif Require Import Py PyLemmas Num ModelKnots ModelCurve ModelSurface ModelInit ModelParam ModelFit ModelIO ModelData SpecIO SpecData Spec ProofNum ProofInit ProofCurve2 ProofIO ProofData.
Open Scope Z_scope.

Section Accept.
Context {K : Num}.
Notation bp := (bproblem K).

Lemma degree_int cl sv (b : bp) z :
  (1 <= z -> exists b', bp_step cl sv b (BDegree (VInt z)) = (b', Ok tt) /\ bp_degree b' = Some z /\
     (bp_data b', bp_start b', bp_end b', bp_num b', bp_adaptive b', bp_init b', bp_param b', bp_fit b')
     = (bp_data b, bp_start b, bp_end b, bp_num b, bp_adaptive b, bp_init b, bp_param b, bp_fit b)) /\
  (z <= 0 -> bp_step cl sv b (BDegree (VInt z)) = (b, Err ValueError)).
Proof.
  cbn [bp_step]; unfold bp_set_degree, check_degree; cbn [le_zero to_int bind]; destruct (Z.leb_spec z 0); (split; intros; [try lia|try lia]).
  - reflexivity.
  - eexists; split; [reflexivity|]; split; reflexivity.
Qed.
Lemma num_int cl sv (b : bp) n :
  (4 <= n -> exists b', bp_step cl sv b (BNum (VInt n)) = (b', Ok tt) /\ bp_num b' = Some n /\
     (bp_degree b', bp_data b', bp_start b', bp_end b', bp_adaptive b', bp_init b', bp_param b', bp_fit b')
     = (bp_degree b, bp_data b, bp_start b, bp_end b, bp_adaptive b, bp_init b, bp_param b, bp_fit b)) /\
  (n <= 3 -> bp_step cl sv b (BNum (VInt n)) = (b, Err ValueError)).
Proof.
  cbn [bp_step]; unfold bp_set_num; cbn [to_int bind]; destruct (Z.leb_spec n 3); (split; intros; [try lia|try lia]).
  - reflexivity.
  - eexists; split; [reflexivity|]; split; reflexivity.
Qed.
Lemma data_accept cl sv (b : bp) a :
  (forall d, a = Ok (Nd2 d) -> dt_cols d = 2 \/ dt_cols d = 3 -> exists b', bp_step cl sv b (BData a) = (b', Ok tt) /\ bp_data b' = Some d) /\
  (forall b', bp_step cl sv b (BData a) = (b', Ok tt) -> exists d, a = Ok (Nd2 d) /\ bp_data b' = Some d /\ (dt_cols d = 2 \/ dt_cols d = 3)).
Proof.
  cbn [bp_step]; unfold bp_set_data, check_data; split.
  - intros d -> [E|E]; cbn [bind]; rewrite E; cbn; eexists; (split; [reflexivity|reflexivity]).
  - intros b'; destruct a as [[x|l|d|]|e|]; cbn [bind finish]; try discriminate.
    destruct (dt_cols d =? 2) eqn:E2; cbn [orb].
    + cbn; intros H; injection H as <-; exists d; repeat split; left; apply Z.eqb_eq, E2.
    + destruct (dt_cols d =? 3) eqn:E3; cbn; [|discriminate]; intros H; injection H as <-; exists d; repeat split; right; apply Z.eqb_eq, E3.
Qed.
Lemma method_accept cl sv (b : bp) v :
  (forall b', bp_step cl sv b (BMethod v) = (b', Ok tt) -> v = VStr (txt "fixed") /\ bp_adaptive b' = false \/ v = VStr (txt "adaptive") /\ bp_adaptive b' = true) /\
  (v = VStr (txt "fixed") \/ v = VStr (txt "adaptive") -> exists b', bp_step cl sv b (BMethod v) = (b', Ok tt)).
Proof.
  assert (TE : forall s t, text_eqb s t = true -> s = t).
  { intros s t; unfold text_eqb; destruct (list_eq_dec _ s t); [auto|discriminate]. }
  cbn [bp_step]; unfold bp_set_method; split.
  - intros b'; destruct v as [z|x|x|s|]; try discriminate.
    destruct (text_eqb s (txt "adaptive")) eqn:EA.
    + rewrite orb_true_r; cbn; intros H; injection H as <-; right; split; [f_equal; apply TE, EA|reflexivity].
    + rewrite orb_false_r; destruct (text_eqb s (txt "fixed")) eqn:EF; cbn; [|discriminate]; intros H; injection H as <-; left; split; [f_equal; apply TE, EF|reflexivity].
  - intros [-> | ->]; eexists; reflexivity.
Qed.

(** What a fit depends on. *)
Lemma refit_same cl sv (b1 b2 b1' b2' : bp) c : bp_init b1 = Some c -> bp_init b2 = Some c ->
  bp_data b1 = bp_data b2 -> bp_num b1 = bp_num b2 -> bp_adaptive b1 = bp_adaptive b2 ->
  bp_fit_run cl sv b1 = (b1', Ok tt) -> bp_fit_run cl sv b2 = (b2', Ok tt) ->
  bp_fit b1' = bp_fit b2' /\ bp_param b1' = bp_param b2'.
Proof.
  intros I1 I2 HD HN HA F1 F2.
  destruct (fit_cases _ _ _ _ _ F1) as (x1 & r1 & _ & _ & _ & _ & A1 & C1); specialize (A1 _ I1); subst x1.
  destruct (fit_cases _ _ _ _ _ F2) as (x2 & r2 & _ & _ & _ & _ & A2 & C2); specialize (A2 _ I2); subst x2.
  destruct C1 as [(N & _ & E)|(i1 & _ & J1 & [(_ & N)|(c1 & k1 & d1 & E1 & K1 & _ & G1 & _ & _ & C1)])]; [congruence|congruence|].
  destruct C2 as [(N & _ & E)|(i2 & _ & J2 & [(_ & N)|(c2 & k2 & d2 & E2 & K2 & _ & G2 & _ & _ & C2)])]; [congruence|congruence|].
  assert (i1 = c) by congruence; assert (i2 = c) by congruence; subst i1 i2.
  rewrite HD, HN, HA, E2 in E1; injection E1 as <-; split; [congruence|].
  destruct C1 as [(_ & N & _)|(_ & _ & C1)]; [discriminate N|]; destruct C2 as [(_ & N & _)|(_ & _ & C2)]; [discriminate N|].
  rewrite HD in C1; destruct (parameterize_curve_opt cl (Some c2) (bp_data b2)); [|destruct C1; discriminate|destruct C1; discriminate].
  destruct C1 as (_ & ->), C2 as (_ & ->); reflexivity.
Qed.
Lemma fit_count cl sv (b b' : bp) : bp_fit_run cl sv b = (b', Ok tt) ->
  exists c kv d n, bp_fit b' = Some c /\ c_kv c = Some kv /\ bp_degree b' = Some d /\ bp_degree b = Some d /\
    bp_num b' = Some n /\ n = zlen kv - d - 1 /\ 4 <= n.
Proof.
  intros F; destruct (fit_cases _ _ _ _ _ F) as (x1 & r1 & _ & _ & _ & _ & A1 & C1).
  destruct C1 as [(N & _ & E)|(i1 & _ & J1 & [(_ & N)|(c1 & k1 & d1 & E1 & K1 & D & G1 & _ & S & C1)])]; [congruence|congruence|].
  destruct C1 as [(_ & N & _)|(L & E & _)]; [discriminate N|].
  injection S as S1 S2 S3 S4 S5; exists c1, k1, d1, (zlen k1 - d1 - 1); repeat split; congruence || lia.
Qed.
(** A fit curve stored by a call that then raises. *)
Lemma fit_raises cl sv (b b' : bp) r c : bp_fit_run cl sv b = (b', r) -> r <> Ok tt -> bp_fit b' = Some c -> bp_fit b <> Some c ->
  (exists kv d, c_kv c = Some kv /\ bp_degree b = Some d /\ zlen kv - d - 1 <= 3 /\ r = Err ValueError) \/
  (forall pd, parameterize_curve_opt cl (Some c) (bp_data b) <> Ok pd).
Proof.
  intros F NR HF HN; destruct (fit_cases _ _ _ _ _ F) as (x1 & r1 & _ & S1 & SF & SP & A1 & C1).
  destruct C1 as [(N & -> & E)|(i1 & _ & J1 & [(-> & N)|(c1 & k1 & d1 & E1 & K1 & D & G1 & _ & S & C1)])]; [congruence|congruence|].
  assert (c1 = c) by congruence; subst c1.
  destruct C1 as [(L & E & _)|(L & E & C1)]; [left; exists k1, d1; repeat split; auto|right].
  intros pd; destruct (parameterize_curve_opt cl (Some c) (bp_data b)); [destruct C1; contradiction|discriminate|discriminate].
Qed.
Lemma save_before (b : bp) name d : bp_fit b = None -> bp_save b name d = (d, Err ValueError).
Proof. intros H; unfold bp_save; rewrite H; reflexivity. Qed.
Lemma load_after step cd (b : bp) c name d : bp_fit b = Some c -> bp_load step cd b name d = (d, Err ValueError).
Proof. intros H; unfold bp_load; rewrite H; reflexivity. Qed.

(** The interior problem's guards. *)
Definition ip_good (p : iproblem K) : Prop :=
  (forall d, ip_degree p = Some d -> 0 <= d) /\ (forall d, ip_data p = Some d -> dt_cols d = 2 \/ dt_cols d = 3) /\
  (forall n, ip_num p = Some n -> 3 <= n).
Lemma ip_fit_keeps new sv (p : iproblem K) o : match o with IInit | IParam | IFit | ITop _ | IBottom _ => True | _ => False end ->
  (ip_degree (fst (ip_step new sv p o)), ip_data (fst (ip_step new sv p o)), ip_num (fst (ip_step new sv p o))) = (ip_degree p, ip_data p, ip_num p).
Proof.
  assert (SI : forall p, (ip_degree (fst (ip_set_init new p)), ip_data (fst (ip_set_init new p)), ip_num (fst (ip_set_init new p))) = (ip_degree p, ip_data p, ip_num p)).
  { clear p; intros p; unfold ip_set_init; destruct (init_surface new _ _ _ _); reflexivity. }
  assert (PA : forall p, (ip_degree (fst (ip_parameterize new p)), ip_data (fst (ip_parameterize new p)), ip_num (fst (ip_parameterize new p))) = (ip_degree p, ip_data p, ip_num p)).
  { clear p; intros p; pose proof (SI p) as E; unfold ip_parameterize; destruct (ip_init p) as [s|], (ip_fit p) as [f|].
    - destruct (parameterize_surface_opt _ _); reflexivity.
    - destruct (parameterize_surface_opt _ _); reflexivity.
    - destruct (parameterize_surface_opt _ _); reflexivity.
    - destruct (ip_set_init new p) as [p' [[]|e|]]; cbn [andthen fst] in *; [|exact E|exact E].
      destruct (parameterize_surface_opt (ip_init p') (ip_data p')); exact E. }
  destruct o; intros T; try contradiction; cbn [ip_step].
  - unfold ip_set_top; destruct (check_boundary o); reflexivity.
  - unfold ip_set_bottom; destruct (check_boundary o); reflexivity.
  - apply SI.
  - apply PA.
  - unfold ip_fit_run.
    assert (G : forall q r, (ip_degree q, ip_data q, ip_num q) = (ip_degree p, ip_data p, ip_num p) ->
      let x := andthen (q, r) (fun p => match ip_init p, ip_data p with
        | Some s, Some data => match ip_top p, ip_bottom p with
            | Some t, Some b => match fit_surface sv s data (bp_param t) (bp_param b) with
                | Ok s' => ip_parameterize new (mkIP (ip_degree p) (ip_data p) (ip_num p) (ip_top p) (ip_bottom p) (ip_init p) (ip_param p) (Some s'))
                | Err e => (p, Err e) | Diverge => (p, Diverge) end
            | _, _ => (p, Err AttributeError) end
        | _, _ => (p, Err TypeError) end) in
      (ip_degree (fst x), ip_data (fst x), ip_num (fst x)) = (ip_degree p, ip_data p, ip_num p)).
    { intros q [[]|e|] E; cbn [andthen]; try exact E.
      destruct (ip_init q); [|exact E]; destruct (ip_data q) eqn:ED; [|rewrite <- ED in E; exact E].
      rewrite <- ED in E; destruct (ip_top q); [|exact E]; destruct (ip_bottom q); [|exact E].
      destruct (fit_surface sv _ _ _ _); [|exact E|exact E]; cbv zeta; rewrite PA; cbn [ip_degree ip_data ip_num]; rewrite <- ED; exact E. }
    destruct (ip_init p) eqn:EI; [exact (G p (Ok tt) eq_refl)|].
    pose proof (SI p) as E; destruct (ip_set_init new p) as [q r]; exact (G q r E).
Qed.
Lemma ip_step_good new sv (p : iproblem K) o : int_of_positive K -> ip_good p -> ip_good (fst (ip_step new sv p o)).
Proof.
  intros IP (GD & GA & GN).
  assert (KE : match o with IInit | IParam | IFit | ITop _ | IBottom _ => True | _ => False end -> ip_good (fst (ip_step new sv p o))).
  { intros T; pose proof (ip_fit_keeps new sv p o T) as E; injection E as E1 E2 E3; unfold ip_good; rewrite E1, E2, E3; auto. }
  destruct o; try (apply KE; exact I); cbn [ip_step]; clear KE.
  - unfold ip_set_degree; destruct (check_degree v) as [d|e|] eqn:E; cbn [bind finish fst]; [|split; auto|split; auto].
    split; [|auto]; cbn; intros d' H; injection H as <-; eapply check_degree_nonneg; eauto.
  - unfold ip_set_data; destruct (check_data a) as [d|e|] eqn:E; cbn [bind finish fst]; [|split; auto|split; auto].
    split; [auto|]; split; [|auto]; cbn; intros d' H; injection H as <-; eapply check_data_width; eauto.
  - unfold ip_set_num; destruct (to_int v) as [n|e|]; cbn [bind]; [|split; auto|split; auto].
    destruct (Z.ltb_spec n 3); cbn [finish fst]; [split; auto|].
    split; [auto|]; split; [auto|]; cbn; intros m H'; injection H' as <-; assumption.
Qed.
Lemma ip_run_good new sv ops : int_of_positive K -> ip_good (ip_run new sv ip_new ops).
Proof.
  intros IP; unfold ip_run; assert (G : forall ops (p : iproblem K), ip_good p -> ip_good (fold_left (fun p o => fst (ip_step new sv p o)) ops p)).
  { induction ops0 as [|o l IH]; intros p H; [exact H|]; cbn [fold_left]; apply IH, ip_step_good; assumption. }
  apply G; repeat split; discriminate.
Qed.
(** A planar start or end point is accepted and then cannot be used. *)
Lemma planar_start (b : bp) a e d n : bp_start b = Some a -> bp_end b = Some e -> zlen a = 2 \/ zlen e = 2 ->
  bp_degree b = Some d -> 1 <= d -> (if bp_adaptive b then n = d + 1 else bp_num b = Some n) -> d <= n -> 
  bp_set_init working_class b = (b, Err IndexError).
Proof.
  intros Hs He HL Hd H1 Hn Hdn; unfold bp_set_init.
  assert (G : initialize_curve_opt working_class (Some a) (Some e) (Some d) (Some n) = Err IndexError).
  { change (initialize_curve a e d n = Err IndexError). apply initialize_planar; [lia|destruct HL; lia]. }
  destruct (bp_adaptive b); [subst n; rewrite Hd, Hs, He, G; reflexivity|rewrite Hd, Hs, He, Hn, G; reflexivity].
Qed.
End Accept.
