(** Boundary problems: attributes and histories. *)
From Coq Require Import Reals Lra Floats.
From Verif Require Import Py PyLemmas Num ModelKnots ModelCurve ModelSurface ModelInit ModelParam ModelFit ModelIO ModelData SpecIO SpecData Spec ProofNum ProofInit ProofCurve2 ProofIO.
Open Scope Z_scope.

Lemma exact_int_of_positive : int_of_positive Exact.
Proof.
  intros [x| | |] z H Hz; cbn in *; try discriminate; injection Hz as <-.
  unfold Rleb in H; destruct (Rle_dec x 0) as [|N]; [discriminate|]; destruct (Rlt_dec x 0); [lra|].
  unfold Rfloor; destruct (archimed x) as [A _]; assert (0 < IZR (up x))%R by lra; apply lt_IZR in H0; lia.
Qed.
Lemma b64_int_of_positive : int_of_positive Binary64.
Proof.
  intros x z H Hz; cbn in H, Hz; unfold b64_trunc, b64_parts in Hz; rewrite leb_spec in H.
  destruct (Prim2SF x) as [s| | |s m e] eqn:E; try discriminate.
  destruct s; [vm_compute in H; discriminate|]; injection Hz as <-.
  destruct (0 <=? e) eqn:Q; [apply Z.leb_le in Q; change (0 <= Z.pos m * 2 ^ e); apply Z.mul_nonneg_nonneg; [lia|apply Z.pow_nonneg; lia]|].
  apply Z.leb_gt in Q; apply Z.div_pos; [lia|apply Z.pow_pos_nonneg; lia].
Qed.

Section Problem.
Context {K : Num}.
Notation bp := (bproblem K).

Lemma finish_fst {S} (s : S) r : fst (finish s r) = match r with Ok s' => s' | _ => s end.
Proof. destruct r; reflexivity. Qed.
Lemma finish_fail {S} (s s' : S) r x : finish s r = (s', x) -> x <> Ok tt -> s' = s.
Proof. destruct r; cbn; intros H N; injection H as <- <-; congruence. Qed.

Lemma check_degree_nonneg (v : pyval K) d : int_of_positive K -> check_degree v = Ok d -> 0 <= d.
Proof.
  intros IP H; unfold check_degree in H; destruct v as [z|b|x|s|]; cbn [le_zero to_int bind] in H; try discriminate.
  - destruct (Z.leb_spec z 0); [discriminate|]; injection H as <-; lia.
  - destruct b; [injection H as <-; lia|discriminate].
  - destruct (x <=? 0)%num eqn:E; [discriminate|]; unfold py_int_float in H.
    destruct (ntrunc x) as [z|] eqn:T; [|destruct (x =? x)%num; discriminate].
    injection H as <-; eauto.
Qed.
Lemma check_data_width (a : res (nd K)) d : check_data a = Ok d -> dt_cols d = 2 \/ dt_cols d = 3.
Proof.
  unfold check_data; destruct a as [[x|l|a|]|e|]; cbn; try discriminate; intros H.
  destruct (Z.eqb_spec (dt_cols a) 2); [injection H as <-; auto|].
  destruct (Z.eqb_spec (dt_cols a) 3); [injection H as <-; auto|discriminate].
Qed.
Lemma check_point_length (a : res (nd K)) p : check_point a = Ok p -> zlen p = 2 \/ zlen p = 3.
Proof.
  unfold check_point; destruct a as [[x|l|a|]|e|]; cbn; try discriminate; intros H.
  destruct (Z.eqb_spec (zlen l) 2); [injection H as <-; auto|].
  destruct (Z.eqb_spec (zlen l) 3); [injection H as <-; auto|discriminate].
Qed.

Lemma assignment_fail cl sv (b b' : bp) o r : assignment o = true -> bp_step cl sv b o = (b', r) -> r <> Ok tt -> b' = b.
Proof. destruct o; intros A; try discriminate A; apply finish_fail. Qed.

(** What the methods leave alone. *)
Lemma set_num_keeps (b : bp) v b' r : bp_set_num b v = (b', r) ->
  (bp_degree b', bp_data b', bp_start b', bp_end b', bp_adaptive b', bp_init b', bp_param b', bp_fit b')
  = (bp_degree b, bp_data b, bp_start b, bp_end b, bp_adaptive b, bp_init b, bp_param b, bp_fit b) /\
  (bp_num b' = bp_num b /\ (r = Ok tt -> False) \/ exists n, to_int v = Ok n /\ bp_num b' = Some n /\ 4 <= n /\ r = Ok tt).
Proof.
  unfold bp_set_num; destruct (to_int v) as [n|e|]; cbn [bind].
  - destruct (Z.leb_spec n 3); cbn [finish]; intros H'; injection H' as <- <-; (split; [reflexivity|]); [left; split; [reflexivity|discriminate]|].
    right; exists n; repeat split; lia.
  - intros H; injection H as <- <-; split; [reflexivity|left; split; [reflexivity|discriminate]].
  - intros H; injection H as <- <-; split; [reflexivity|left; split; [reflexivity|discriminate]].
Qed.
Definition settings (b : bp) := (bp_degree b, bp_data b, bp_start b, bp_end b, bp_num b, bp_adaptive b).
Lemma set_init_keeps cl (b b' : bp) r : bp_set_init cl b = (b', r) ->
  settings b' = settings b /\ bp_param b' = bp_param b /\ bp_fit b' = bp_fit b /\
  (r = Ok tt \/ b' = b) /\ (r = Ok tt -> exists c, bp_init b' = Some c).
Proof.
  unfold bp_set_init; match goal with |- finish _ (let* c := ?m in _) = _ -> _ => destruct m as [c|e|] end; cbn [bind finish]; intros H; injection H as <- <-;
    repeat split; try discriminate; cbn; eauto.
Qed.
Lemma parameterize_keeps cl (b b' : bp) r : bp_parameterize cl b = (b', r) ->
  settings b' = settings b /\ bp_fit b' = bp_fit b /\ (forall c, bp_init b = Some c -> bp_init b' = Some c).
Proof.
  unfold bp_parameterize; destruct (bp_init b) as [c0|] eqn:EI; destruct (bp_fit b) as [c|] eqn:EF.
  - destruct (parameterize_curve_opt cl (Some c) (bp_data b)); cbn [bind finish]; intros H; injection H as <- <-; repeat split; cbn; congruence.
  - destruct (parameterize_curve_opt cl (Some c0) (bp_data b)); cbn [bind finish]; intros H; injection H as <- <-; repeat split; cbn; congruence.
  - destruct (parameterize_curve_opt cl (Some c) (bp_data b)); cbn [bind finish]; intros H; injection H as <- <-; repeat split; cbn; congruence.
  - destruct (bp_set_init cl b) as [b1 r1] eqn:E; destruct (set_init_keeps _ _ _ _ E) as (S1 & P1 & F1 & _ & _).
    unfold settings in *; injection S1 as H1 H2 H3 H4 H5 H6; destruct r1 as [[]|e|]; cbn [andthen].
    + destruct (parameterize_curve_opt cl (bp_init b1) (bp_data b1)); cbn [bind finish]; intros H; injection H as <- <-; repeat split; cbn; congruence.
    + intros H; injection H as <- <-; repeat split; congruence.
    + intros H; injection H as <- <-; repeat split; congruence.
Qed.

(** A fit in steps. *)
Definition start_curve cl (b : bp) : bp * res unit := match bp_init b with None => bp_set_init cl b | Some _ => (b, Ok tt) end.
Lemma fit_cases cl sv (b b' : bp) r : bp_fit_run cl sv b = (b', r) ->
  exists b1 r1, start_curve cl b = (b1, r1) /\ settings b1 = settings b /\ bp_fit b1 = bp_fit b /\ bp_param b1 = bp_param b /\
    (forall c, bp_init b = Some c -> b1 = b) /\
    ((r1 <> Ok tt /\ b' = b1 /\ r = r1) \/
     exists init, r1 = Ok tt /\ bp_init b1 = Some init /\
       ((b' = b1 /\ r <> Ok tt) \/
        exists c kv d, (if bp_adaptive b then fit_curve_knot_insertion_opt cl sv init (bp_data b) (bp_num b)
                        else fit_curve_fixed_ctrlpts_opt cl sv init (bp_data b)) = Ok c /\
          c_kv c = Some kv /\ bp_degree b = Some d /\ bp_fit b' = Some c /\ bp_init b' = Some init /\
          (bp_degree b', bp_data b', bp_start b', bp_end b', bp_adaptive b') = (bp_degree b, bp_data b, bp_start b, bp_end b, bp_adaptive b) /\
          ((zlen kv - d - 1 <= 3 /\ r = Err ValueError /\ bp_num b' = bp_num b /\ bp_param b' = bp_param b) \/
           (4 <= zlen kv - d - 1 /\ bp_num b' = Some (zlen kv - d - 1) /\
            match parameterize_curve_opt cl (Some c) (bp_data b) with
            | Ok pd => r = Ok tt /\ bp_param b' = Some pd
            | Err e => r = Err e /\ bp_param b' = bp_param b
            | Diverge => r = Diverge /\ bp_param b' = bp_param b
            end)))).
Proof.
  intros H; unfold bp_fit_run in H; fold (start_curve cl b) in H.
  destruct (start_curve cl b) as [b1 r1] eqn:E; exists b1, r1; split; [reflexivity|].
  assert (S1 : settings b1 = settings b /\ bp_fit b1 = bp_fit b /\ bp_param b1 = bp_param b /\
               (forall c, bp_init b = Some c -> b1 = b) /\ (r1 = Ok tt -> exists c, bp_init b1 = Some c)).
  { unfold start_curve in E; destruct (bp_init b) as [c|] eqn:EI.
    - injection E as <- <-; repeat split; eauto.
    - destruct (set_init_keeps _ _ _ _ E) as (A & B & C & D & F); repeat split; auto; discriminate. }
  destruct S1 as (S1 & F1 & P1 & N1 & I1); do 4 (split; [assumption|]).
  destruct r1 as [[]|e|]; cbn [andthen] in H; [|left; injection H as <- <-; repeat split; discriminate..].
  right; destruct (I1 eq_refl) as (init & EI); exists init; split; [reflexivity|]; split; [exact EI|].
  rewrite EI in H; unfold settings in S1; injection S1 as D1 A1 T1 E1 U1 M1; rewrite M1, A1, U1, D1 in H.
  match type of H with match bind ?m _ with _ => _ end = _ => destruct m as [c|e|] eqn:EC end; cbn [bind] in H;
    [|left; injection H as <- <-; split; [reflexivity|discriminate]..].
  destruct (c_kv c) as [kv|] eqn:EK; [|left; injection H as <- <-; split; [reflexivity|discriminate]].
  destruct (bp_degree b) as [d|] eqn:ED; [|left; injection H as <- <-; split; [reflexivity|discriminate]].
  right; exists c, kv, d; split; [reflexivity|]; split; [exact EK|]; split; [reflexivity|].
  match type of H with andthen (bp_set_num ?bb ?v) _ = _ => set (b2 := bb) in H; destruct (bp_set_num b2 v) as [b3 r3] eqn:E3 end.
  destruct (set_num_keeps _ _ _ _ E3) as (KS & KN); injection KS as KD KA KT KE KM KI KP KF; unfold b2 in *; cbn in KD, KA, KT, KE, KM, KI, KP, KF.
  unfold bp_set_num in E3; cbn [to_int bind] in E3; destruct (Z.leb_spec (zlen kv - d - 1) 3); cbn [finish] in E3; injection E3 as <- <-.
  - cbn [andthen] in H; injection H as <- <-; cbn; do 2 (split; [congruence|]); split; [congruence|]; left; repeat split; auto.
  - cbn [andthen] in H; unfold bp_parameterize in H; cbn [bp_init bp_fit] in H.
    cbn [bp_data] in H.
    destruct (parameterize_curve_opt cl (Some c) (bp_data b)) as [pd|e|] eqn:EP; cbn [bind finish] in H; injection H as <- <-; cbn;
      (do 2 (split; [congruence|])); (split; [congruence|]); right; (split; [lia|]); (split; [reflexivity|]); split; auto.
Qed.

Definition bp_good (b : bp) : Prop :=
  (forall d, bp_degree b = Some d -> 0 <= d) /\ (forall d, bp_data b = Some d -> dt_cols d = 2 \/ dt_cols d = 3) /\
  (forall p, bp_start b = Some p -> zlen p = 2 \/ zlen p = 3) /\ (forall p, bp_end b = Some p -> zlen p = 2 \/ zlen p = 3) /\
  (forall n, bp_num b = Some n -> 4 <= n).

Lemma step_good cl sv (b : bp) o : int_of_positive K -> bp_good b -> bp_good (fst (bp_step cl sv b o)).
Proof.
  intros IP G; pose proof G as (GD & GA & GS & GE & GN); destruct o as [v|a|a|a|v|v| | |]; cbn [bp_step].
  - unfold bp_set_degree; rewrite finish_fst; destruct (check_degree v) eqn:E; cbn [bind]; [|exact G..].
    split; [|auto]; cbn; intros d H; injection H as <-; eapply check_degree_nonneg; eauto.
  - unfold bp_set_data; rewrite finish_fst; destruct (check_data a) eqn:E; cbn [bind]; [|exact G..].
    split; [auto|]; split; [|auto]; cbn; intros d H; injection H as <-; eapply check_data_width; eauto.
  - unfold bp_set_start; rewrite finish_fst; destruct (check_point a) eqn:E; cbn [bind]; [|exact G..].
    do 2 (split; [auto|]); split; [|auto]; cbn; intros d H; injection H as <-; eapply check_point_length; eauto.
  - unfold bp_set_end; rewrite finish_fst; destruct (check_point a) eqn:E; cbn [bind]; [|exact G..].
    do 3 (split; [auto|]); split; [|auto]; cbn; intros d H; injection H as <-; eapply check_point_length; eauto.
  - unfold bp_set_num; rewrite finish_fst; destruct (to_int v) as [n|e|]; cbn [bind]; [|exact G..].
    destruct (Z.leb_spec n 3); [split; auto|]; do 4 (split; [auto|]); cbn; intros m E; injection E as <-; lia.
  - unfold bp_set_method; rewrite finish_fst; destruct v; try exact G; destruct (text_eqb s _ || text_eqb s _); exact G.
  - destruct (bp_set_init cl b) as [b' r] eqn:E; destruct (set_init_keeps _ _ _ _ E) as (S & _); injection S as H1 H2 H3 H4 H5 H6; cbn.
    unfold bp_good; rewrite H1, H2, H3, H4, H5; repeat split; auto.
  - destruct (bp_parameterize cl b) as [b' r] eqn:E; destruct (parameterize_keeps _ _ _ _ E) as (S & _); injection S as H1 H2 H3 H4 H5 H6; cbn.
    unfold bp_good; rewrite H1, H2, H3, H4, H5; repeat split; auto.
  - destruct (bp_fit_run cl sv b) as [b' r] eqn:E; cbn [fst].
    destruct (fit_cases _ _ _ _ _ E) as (b1 & r1 & _ & S & _ & _ & _ & C); injection S as H1 H2 H3 H4 H5 H6.
    assert (G1 : bp_good b1) by (unfold bp_good; rewrite H1, H2, H3, H4, H5; repeat split; auto).
    destruct C as [(_ & -> & _)|(init & _ & _ & [(-> & _)|(c & kv & d & _ & _ & _ & _ & _ & T & C)])]; [exact G1|exact G1|].
    injection T as T1 T2 T3 T4 T5; unfold bp_good; rewrite T1, T2, T3, T4; repeat split; auto.
    intros n Hn; destruct C as [(_ & _ & EN & _)|(L & EN & _)]; [apply GN; congruence|congruence].
Qed.
Lemma run_good cl sv ops : int_of_positive K -> forall b : bp, bp_good b -> bp_good (bp_run cl sv b ops).
Proof. intros IP; unfold bp_run; induction ops as [|o t IH]; intros b G; cbn; [exact G|]; apply IH, step_good; assumption. Qed.
Lemma new_good : bp_good bp_new.
Proof. repeat split; discriminate. Qed.

(** The initial curve stays once it is there. *)
Lemma step_init cl sv (b : bp) c o : bp_init b = Some c -> o <> BInit -> bp_init (fst (bp_step cl sv b o)) = Some c.
Proof.
  intros HI N; destruct o as [v|a|a|a|v|v| | |]; cbn [bp_step].
  - unfold bp_set_degree; rewrite finish_fst; destruct (check_degree v); exact HI.
  - unfold bp_set_data; rewrite finish_fst; destruct (check_data a); exact HI.
  - unfold bp_set_start; rewrite finish_fst; destruct (check_point a); exact HI.
  - unfold bp_set_end; rewrite finish_fst; destruct (check_point a); exact HI.
  - destruct (bp_set_num b v) as [b' r] eqn:E; destruct (set_num_keeps _ _ _ _ E) as (S & _); injection S as _ _ _ _ _ S _ _; cbn; congruence.
  - unfold bp_set_method; rewrite finish_fst; destruct v; try exact HI; destruct (_ || _); exact HI.
  - congruence.
  - destruct (bp_parameterize cl b) as [b' r] eqn:E; destruct (parameterize_keeps _ _ _ _ E) as (_ & _ & S); cbn; auto.
  - destruct (bp_fit_run cl sv b) as [b' r] eqn:E; cbn [fst].
    destruct (fit_cases _ _ _ _ _ E) as (b1 & r1 & _ & _ & _ & _ & N1 & C).
    specialize (N1 _ HI); subst b1; destruct C as [(_ & -> & _)|(init & _ & I1 & [(-> & _)|(c1 & kv & d & _ & _ & _ & _ & I & _)])]; congruence.
Qed.
Lemma run_init cl sv c ops : ~ In BInit ops -> forall b : bp, bp_init b = Some c -> bp_init (bp_run cl sv b ops) = Some c.
Proof.
  unfold bp_run; induction ops as [|o t IH]; intros N b HI; cbn; [exact HI|].
  apply IH; [intros H; apply N; right; exact H|]; apply step_init; [exact HI|]; intros ->; apply N; left; reflexivity.
Qed.

(** Without a usable curve class nothing is ever built. *)
Lemma set_init_repo (b b' : bp) r : bp_set_init repo_class b = (b', r) -> b' = b /\ r <> Ok tt.
Proof.
  unfold bp_set_init; intros H.
  assert (Q : forall d n c, initialize_curve_opt repo_class (bp_start b) (bp_end b) d n <> Ok c).
  { intros d n c; unfold initialize_curve_opt; destruct n as [n|]; [|discriminate]; destruct d as [d|]; [|discriminate].
    destruct (bp_start b) as [a|]; [destruct (bp_end b) as [e|]|]; [apply initialize_repo|..];
      (destruct (negb _); [discriminate|]; destruct (set_degree _ d); discriminate). }
  match type of H with finish _ (let* c := ?m in _) = _ => assert (X : forall c, m <> Ok c) end.
  { intros c; destruct (bp_adaptive b); [destruct (bp_degree b); [apply Q|discriminate]|apply Q]. }
  match type of H with finish _ (let* c := ?m in _) = _ => destruct m as [c|e|] end; [destruct (X c eq_refl)|..];
    cbn in H; injection H as <- <-; split; congruence.
Qed.
Lemma step_repo sv (b : bp) o : bp_init b = None /\ bp_fit b = None /\ bp_param b = None ->
  let b' := fst (bp_step repo_class sv b o) in bp_init b' = None /\ bp_fit b' = None /\ bp_param b' = None.
Proof.
  intros N; destruct o as [v|a|a|a|v|v| | |]; cbn [bp_step]; cbv zeta.
  - unfold bp_set_degree; rewrite finish_fst; destruct (check_degree v); exact N.
  - unfold bp_set_data; rewrite finish_fst; destruct (check_data a); exact N.
  - unfold bp_set_start; rewrite finish_fst; destruct (check_point a); exact N.
  - unfold bp_set_end; rewrite finish_fst; destruct (check_point a); exact N.
  - unfold bp_set_num; rewrite finish_fst; destruct (to_int v); cbn [bind]; [destruct (_ <=? _)|..]; exact N.
  - unfold bp_set_method; rewrite finish_fst; destruct v; try exact N; destruct (_ || _); exact N.
  - destruct (bp_set_init _ b) as [b' r] eqn:E; destruct (set_init_repo _ _ _ E) as (-> & _); exact N.
  - destruct N as (N1 & N2 & N3); unfold bp_parameterize; rewrite N1, N2.
    destruct (bp_set_init _ b) as [b' r] eqn:E; destruct (set_init_repo _ _ _ E) as (-> & R); destruct r as [[]|e|]; [congruence|cbn; auto..].
  - destruct N as (N1 & N2 & N3); unfold bp_fit_run; rewrite N1.
    destruct (bp_set_init _ b) as [b' r] eqn:E; destruct (set_init_repo _ _ _ E) as (-> & R); destruct r as [[]|e|]; [congruence|cbn; auto..].
Qed.
Lemma run_repo sv ops : forall b : bp, bp_init b = None /\ bp_fit b = None /\ bp_param b = None ->
  let b' := bp_run repo_class sv b ops in bp_init b' = None /\ bp_fit b' = None /\ bp_param b' = None.
Proof. unfold bp_run; induction ops as [|o t IH]; intros b N; cbn; [exact N|]; apply IH, step_repo, N. Qed.

(** Persistence. *)
Lemma save_never (b : bp) name d : exists e, bp_save b name d = (d, Err e).
Proof.
  unfold bp_save; destruct (bp_fit b); [|eexists; reflexivity].
  rewrite write_curve_never; eexists; reflexivity.
Qed.
Lemma load_never step cd (b : bp) name d : exists r, bp_load step cd b name d = (d, r) /\ r <> Ok tt.
Proof.
  unfold bp_load; destruct (bp_fit b); [eexists; split; [reflexivity|discriminate]|].
  destruct (read_curve_from_txt step cd None name d) as [[d' o] r] eqn:E.
  destruct (read_curve_none step cd name d) as (r' & E' & N); rewrite E in E'; injection E' as -> _ ->.
  exists r'; split; [reflexivity|exact N].
Qed.
End Problem.
