(** Data and Boundary objects; the interior problem from its settings to its fit. *)
From Coq Require Import Reals Lra.
From Verif Require Import Py PyLemmas Num ModelKnots ModelBasis ModelCurve ModelSurface ModelInit ModelParam ModelFit ModelIO ModelData Spec SpecFit SpecParam SpecData MathKnots ProofNum ProofKnots ProofCurve ProofSurface ProofInit ProofFit6 ProofFit7 ProofFit8 ProofData3.
Open Scope Z_scope.

(** ** Data and Boundary *)
Section Shaped.
Context {K : Num}.
Lemma dim_fixed (o : dobj K) ops : do_dim (do_run o ops) = do_dim o /\ do_boundary (do_run o ops) = do_boundary o.
Proof.
  revert o; induction ops as [|x l IH]; intros o; [split; reflexivity|]; unfold do_run in *; cbn [fold_left].
  destruct (IH (fst (do_step o x))) as [A B]; rewrite A, B; clear.
  destruct x as [x|x|x|d]; cbn [do_step]; unfold do_set_data, do_set_start, do_set_end, do_set_dim; try (split; reflexivity).
  - destruct (check_shape (do_dim o) x); split; reflexivity.
  - destruct (do_boundary o) eqn:E; [destruct (check_shape (do_dim o) x)|]; cbn; rewrite ?E; split; reflexivity.
  - destruct (do_boundary o) eqn:E; [destruct (check_shape (do_dim o) x)|]; cbn; rewrite ?E; split; reflexivity.
Qed.
(** No array is ever stored by a setter. *)
Lemma array_refused (o : dobj K) a :
  do_set_data o (SArray a) = (o, Err TypeError) /\
  (do_boundary o = true -> do_set_start o (SArray a) = (o, Err TypeError) /\ do_set_end o (SArray a) = (o, Err TypeError)).
Proof. split; [reflexivity|]; intros E; unfold do_set_start, do_set_end; rewrite E; split; reflexivity. Qed.
Lemma method_accepted (o : dobj K) i r :
  do_set_data o (SMethod i r) =
    match r with
    | Ok d => if d =? do_dim o then (mkDO (do_boundary o) (do_dim o) (Some (SMethod i r)) (do_start o) (do_end o), Ok tt) else (o, Err ValueError)
    | Err e => (o, Err e)
    | Diverge => (o, Diverge)
    end.
Proof. unfold do_set_data, check_shape; destruct r as [d|e|]; cbn [bind]; [destruct (d =? do_dim o)|..]; reflexivity. Qed.
Lemma data_never (o : dobj K) ops : Forall (fun x => ~ method_shape x) ops -> do_data (do_run o ops) = do_data o.
Proof.
  revert o; induction ops as [|x l IH]; intros o F; [reflexivity|]; inversion_clear F; unfold do_run in *; cbn [fold_left]; rewrite IH by assumption.
  destruct x as [[a|i|i r]|x|x|d]; cbn [do_step]; try reflexivity.
  - destruct (H I).
  - unfold do_set_start; destruct (do_boundary o); [destruct (check_shape (do_dim o) x)|]; reflexivity.
  - unfold do_set_end; destruct (do_boundary o); [destruct (check_shape (do_dim o) x)|]; reflexivity.
Qed.
Lemma ends_never (o : dobj K) ops : do_boundary o = true -> Forall (fun x => ~ method_shape x) ops ->
  do_start (do_run o ops) = do_start o /\ do_end (do_run o ops) = do_end o.
Proof.
  revert o; induction ops as [|x l IH]; intros o B F; [split; reflexivity|]; inversion_clear F; unfold do_run in *; cbn [fold_left].
  assert (E : fst (do_step o x) = o).
  { destruct x as [[a|i|i r]|[a|i|i r]|[a|i|i r]|d]; cbn [do_step]; try reflexivity; try (destruct (H I)).
    all: unfold do_set_start, do_set_end; rewrite B; reflexivity. }
  rewrite E; apply IH; assumption.
Qed.
Lemma boundary_history dim ops : Forall (fun x => ~ method_shape x) ops ->
  let o := do_run (do_new (K := K) true dim) ops in
  do_get (do_data o) = Err AttributeError /\ do_get (do_start o) = Err AttributeError /\ do_get (do_end o) = Err AttributeError.
Proof.
  intros F o; unfold o; rewrite data_never by assumption; destruct (ends_never (do_new true dim) ops eq_refl F) as [-> ->]; repeat split.
Qed.
Lemma data_history dim ops : Forall (fun x => ~ method_shape x) ops ->
  do_get (do_data (do_run (do_new (K := K) false dim) ops)) = Err AttributeError.
Proof. intros F; rewrite data_never by assumption; reflexivity. Qed.
End Shaped.

(** ** The interior fit *)
Open Scope R_scope.
Lemma net_col_ext {A} nu nv (P Q : list (list A)) j : (j < nv)%nat ->
  (forall i, (i < nu)%nat -> nth (i * nv + j) P [] = nth (i * nv + j) Q []) -> net_col nu nv P j = net_col nu nv Q j.
Proof. intros Hj H; unfold net_col; apply map_ext_in; intros i I; apply in_seq in I; apply H; lia. Qed.

Lemma interior_fit sv (ip ip' : iproblem Exact) (t b : bproblem Exact) ct cb p q nu nv T B U d data :
  least_squares sv -> ip_init ip = None -> ip_top ip = Some t -> ip_bottom ip = Some b ->
  ip_degree ip = Some (Z.of_nat q) -> ip_num ip = Some (Z.of_nat nv) -> ip_data ip = Some (mkData 3 (fin2 data)) ->
  Forall (fun r => length r = 3%nat) data ->
  bp_degree t = Some (Z.of_nat p) -> bp_degree b = Some (Z.of_nat p) ->
  bp_num t = Some (Z.of_nat nu) -> bp_num b = Some (Z.of_nat nu) ->
  bp_fit t = Some ct -> bp_fit b = Some cb -> c_ctrl ct = Some (fin2 T) -> c_ctrl cb = Some (fin2 B) -> c_kv cb = Some (fin U) ->
  Forall (fun r => length r = 3%nat) T -> Forall (fun r => length r = 3%nat) B -> length T = nu -> length B = nu ->
  (1 <= p)%nat -> (1 <= q)%nat -> (q + 1 <= nv)%nat ->
  tight (Z.of_nat p) (Z.of_nat nu) U -> kn U (Z.of_nat p) = 0 -> kn U (Z.of_nat nu) = 1 ->
  ip_fit_run working_surface sv ip = (ip', Ok tt) ->
  exists V P Q S0 S pts rows,
    init_surface working_surface (Some t) (Some b) (Some (Z.of_nat q)) (Some (Z.of_nat nv)) = Ok S0 /\ ip_init ip' = Some S0 /\
    S0 = mkSurf (K := Exact) (Z.of_nat p) (Z.of_nat q) (Z.of_nat nu) (Z.of_nat nv) (fin2 P) (fin U) (fin V) /\
    S = mkSurf (K := Exact) (Z.of_nat p) (Z.of_nat q) (Z.of_nat nu) (Z.of_nat nv) (fin2 Q) (fin U) (fin V) /\
    ip_fit ip' = Some S /\
    length Q = (nu * nv)%nat /\ Forall (fun r => length r = 3%nat) Q /\
    (forall i j, (i < nu)%nat -> (j < nv)%nat -> on_edge nu nv i j ->
       nth (i * nv + j) Q [] = lerp (nth i B []) (nth i T []) (INR j / IZR (Z.of_nat nv - 1))) /\
    (forall u s, 0 <= u <= 1 -> find_span (Z.of_nat nu) (Z.of_nat p) (Fin u : Exact) (fin U) = Ok s -> kn U s < kn U (s + 1) ->
       surf_point S (Fin u : Exact) (Fin 0 : Exact) = single_point (curve_of (Z.of_nat p) U B d) (Fin u : Exact) /\
       surf_point S (Fin u : Exact) (Fin 1 : Exact) = single_point (curve_of (Z.of_nat p) U T d) (Fin u : Exact)) /\
    parameterize_surface (beh_of_surf S0) (mkData 3 (fin2 data)) = Ok (fin2 pts) /\
    (forall W, length W = (nu * nv)%nat ->
       (forall i j, (i < nu)%nat -> (j < nv)%nat -> on_edge nu nv i j -> nth (i * nv + j) W [] = nth (i * nv + j) Q []) ->
       surface_err U V p q nu nv Q pts <= surface_err U V p q nu nv W pts) /\
    parameterize_surface (beh_of_surf S) (mkData 3 (fin2 data)) = Ok rows /\ ip_param ip' = Some (mkData 5 rows).
Proof.
  intros HS I0 It Ib Id In Ia FD Dt Db Nt Nb Ft Fb Ct Cb Kb FT FB LT LB Hp Hq Hv HU K0 K1 HR.
  assert (Hu : (p + 1 <= nu)%nat) by (destruct (clamped_facts _ _ _ (proj1 HU)) as (_ & Hn & _); lia).
  destruct (uniform_tight' q nv Hq Hv) as (HV & V0 & V1).
  set (V := uniform (Z.of_nat q) (Z.of_nat nv)) in *; set (P := ruled T B nu nv).
  assert (EI : init_surface working_surface (Some t) (Some b) (Some (Z.of_nat q)) (Some (Z.of_nat nv)) = Ok (surf_of p q nu nv U V P))
    by (eapply init_surface_ruled; eauto).
  revert HR; unfold ip_fit_run; rewrite I0; unfold ip_set_init; rewrite It, Ib, Id, In, EI.
  cbn [bind finish andthen ip_init ip_data ip_top ip_bottom ip_degree ip_num ip_param ip_fit]; rewrite Ia.
  destruct (fit_surface sv (surf_of p q nu nv U V P) (mkData 3 (fin2 data)) (bp_param t) (bp_param b)) as [S|e|] eqn:EF; try discriminate.
  destruct (parameterize_surface (beh_of_surf (surf_of p q nu nv U V P)) (mkData 3 (fin2 data))) as [out|e|] eqn:EP.
  2-3: exfalso; revert EF; unfold fit_surface; rewrite EP; discriminate.
  assert (ET : exists top, bp_param t = Some top).
  { destruct (bp_param t) as [x|] eqn:E; [eauto|exfalso; exact (fit_surface_no_boundary _ _ _ _ _ _ _ (or_introl eq_refl) EF)]. }
  assert (EB : exists bot, bp_param b = Some bot).
  { destruct (bp_param b) as [x|] eqn:E; [eauto|exfalso; exact (fit_surface_no_boundary _ _ _ _ _ _ _ (or_intror eq_refl) EF)]. }
  destruct ET as (top & ET), EB as (bot & EB); rewrite ET, EB in EF.
  assert (W4 : dt_cols top = 4%Z /\ dt_cols bot = 4%Z).
  { destruct (Z.eq_dec (dt_cols top) 4) as [A|A]; [destruct (Z.eq_dec (dt_cols bot) 4) as [C|C]; [auto|]|];
      rewrite (fit_surface_bad_width _ sv (surf_of p q nu nv U V P) _ top bot out EP) in EF; try discriminate; cbn [dt_cols]; [right|left]; assumption. }
  destruct (fit_surface_exact sv p q nu nv U V P data top bot out HS HU HV K0 K1 V0 V1 (ruled_length _ _ _ _) (ruled_three _ _ _ _) FD (proj1 W4) (proj2 W4) EP)
    as (pts & Q & Eo & EF' & LQ & FQ & HE & HO).
  subst out.
  change (mkSurf (K := Exact) (Z.of_nat p) (Z.of_nat q) (Z.of_nat nu) (Z.of_nat nv) (fin2 P) (fin U) (fin V)) with (surf_of p q nu nv U V P) in EF'.
  rewrite EF' in EF; injection EF as <-.
  change (mkSurf (Z.of_nat p) (Z.of_nat q) (Z.of_nat nu) (Z.of_nat nv) (fin2 Q : list (list Exact)) (fin U) (fin V)) with (surf_of p q nu nv U V Q).
  unfold ip_parameterize; cbn [ip_init ip_fit ip_data ip_top ip_bottom ip_degree ip_num ip_param parameterize_surface_opt].
  destruct (parameterize_surface (beh_of_surf (surf_of p q nu nv U V Q)) (mkData 3 (fin2 data))) as [rows|e|] eqn:EQ; try discriminate.
  intros HR; injection HR as <-.
  exists V, P, Q, (surf_of p q nu nv U V P), (surf_of p q nu nv U V Q), pts, rows.
  assert (LP : length P = (nu * nv)%nat) by apply ruled_length.
  do 5 (split; [reflexivity|]).
  split; [congruence|]; split; [exact FQ|]; split.
  { intros i j Hi Hj E; rewrite HE by assumption; apply ruled_nth; assumption. }
  split.
  { intros u s Hur HF HL.
    destruct (surface_edges p q nu nv U V Q d FQ ltac:(congruence) HU HV K0 K1 V0 V1) as (E & _).
    rewrite (net_col_ext nu nv Q P 0), (net_col_ext nu nv Q P (nv - 1)) in E
      by (try lia; intros i Hi; apply HE; try lia; auto).
    unfold P in E; rewrite ruled_bottom, ruled_top in E by (assumption || lia); exact (E u s Hur HF HL). }
  split; [exact EP|]; split; [|split; [exact EQ|reflexivity]].
  intros W LW HW; apply HO; [congruence|]; intros i j Hi Hj E; rewrite <- (HE i j Hi Hj E); apply HW; assumption.
Qed.
