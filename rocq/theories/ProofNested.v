(** The classes as indented: histories and the detour that works. *)
From Coq Require Import Ascii String.
From Verif Require Import Py PyLemmas Num ModelKnots ModelBasis ModelCurve ModelSurface ModelNested Spec MathKnots ProofNum ProofCurve.
Open Scope Z_scope.

(** The last degree >= 1 among the requests. *)
Definition last_degree {K} (ops : list (nested_op K)) : option Z :=
  fold_left (fun acc o => match o with NDegree d => if 1 <=? d then Some d else acc | _ => acc end) ops None.
Definition curve_request {K} (o : nested_op K) : Prop :=
  match o with NDegree _ | NCtrl _ | NKnots _ | NInsert _ => True | _ => False end.

Lemma init_nested (K : Num) degree degree_u degree_v dimension :
  nested_init (K := K) degree degree_u degree_v dimension =
  Ok (mkNested (mkSurfObj degree_u degree_v None None None None None None None
                  (match dimension with Some d => d | None => 0 end)) None None).
Proof. reflexivity. Qed.

Definition bare {K : Num} (c : nested K) : Prop :=
  o_degree_u (n_surf c) = None /\ o_ctrl (n_surf c) = None /\ n_kv c = None.
Lemma bare_step (K : Num) (c : nested K) o :
  curve_request o -> bare c ->
  bare (fst (nested_step c o)) /\
  n_degree (fst (nested_step c o)) =
    match o with NDegree d => if 1 <=? d then Some d else n_degree c | _ => n_degree c end.
Proof.
  intros R (H1 & H2 & H3). destruct o; cbn in R; try contradiction; unfold nested_step, nested_apply.
  - unfold nested_degree. destruct (Z.ltb_spec d 1), (Z.leb_spec 1 d); try lia; cbn; split;
      try reflexivity; now split.
  - unfold set_surf_ctrl. rewrite H1. cbn. now split.
  - unfold nested_knots, get_ctrl. rewrite H2. destruct (n_degree c) eqn:E; cbn; rewrite ?E; now split.
  - now split.
Qed.
Lemma bare_run (K : Num) ops : forall c : nested K,
  Forall curve_request ops -> bare c ->
  bare (nested_run c ops) /\
  n_degree (nested_run c ops) =
    fold_left (fun acc o => match o with NDegree d => if 1 <=? d then Some d else acc | _ => acc end)
      ops (n_degree c).
Proof.
  induction ops as [|o ops IH]; intros c F B; [now split|]. inversion F; subst.
  cbn [nested_run fold_left]. destruct (bare_step K c o) as [B' D]; auto.
  rewrite <- D. now apply IH.
Qed.

Lemma nested_history (K : Num) degree dimension c0 (ops : list (nested_op K)) :
  nested_init degree None None dimension = Ok c0 -> Forall curve_request ops ->
  let c := nested_run c0 ops in
  get_ctrl c = None /\ get_kv c = Err AttributeError /\
  get_degree c = match last_degree ops with Some d => Ok d | None => Err AttributeError end /\
  (forall a, nested_step c (NCtrl a) = (c, Some ValueError)) /\
  (forall kv, nested_step c (NKnots kv) =
     (c, Some (match last_degree ops with Some _ => ValueError | None => AttributeError end))) /\
  (forall u, nested_point c u = Err (if validate_knot u then TypeError else ValueError)).
Proof.
  rewrite init_nested. intros [= <-] F c.
  destruct (bare_run K ops (mkNested (mkSurfObj None None None None None None None None None
    (match dimension with Some d => d | None => 0 end)) None None) F) as [(H1 & H2 & H3) D].
  { repeat split. }
  fold c in H1, H2, H3, D. cbn [n_degree] in D.
  unfold last_degree. rewrite <- D.
  repeat match goal with |- _ /\ _ => split end.
  - exact H2.
  - unfold get_kv. now rewrite H3.
  - reflexivity.
  - intros a. unfold nested_step, nested_apply, set_surf_ctrl. now rewrite H1.
  - intros kv. unfold nested_step, nested_apply, nested_knots, get_ctrl. rewrite H2.
    now destruct (n_degree c).
  - intros u. unfold nested_point, get_ctrl. rewrite H2. now destruct (validate_knot u).
Qed.

(** Setting the surface degrees as well makes the object usable. *)
Lemma nested_detour (K : Num) (c : nested K) d du dv a kv :
  1 <= d -> 1 <= du -> 1 <= dv -> width a <> o_dim (n_surf c) ->
  check_knot_vector d (NdArray kv) (zlen a) = Ok true ->
  let c' := nested_run c [NDegree d; NDegreeU du; NDegreeV dv; NCtrl a; NKnots (NdArray kv)] in
  get_degree c' = Ok d /\ get_ctrl c' = Some a /\ get_kv c' = Ok kv /\
  (forall dim u, nested_point c' u = single_point (mkCurve (Some d) (Some a) (Some kv) dim) u).
Proof.
  intros H1 H2 H3 W C c'.
  assert (E : c' = mkNested
     (mkSurfObj (Some du) (Some dv) (o_num_u (n_surf c)) (o_num_v (n_surf c)) (o_nc_u (n_surf c))
        (o_nc_v (n_surf c)) (Some a) (o_ku (n_surf c)) (o_kv (n_surf c)) (o_dim (n_surf c)))
     (Some d) (Some kv)).
  { unfold c'. cbn [nested_run fold_left].
    unfold nested_step at 5, nested_apply, nested_degree.
    destruct (Z.ltb_spec d 1); [lia|]. cbn [fst].
    unfold nested_step at 4, nested_apply, set_degree_u. destruct (Z.ltb_spec du 1); [lia|].
    cbn [on_surf bind fst n_surf n_degree n_kv].
    unfold nested_step at 3, nested_apply, set_degree_v. destruct (Z.ltb_spec dv 1); [lia|].
    cbn [on_surf bind fst n_surf n_degree n_kv o_degree_u o_degree_v o_num_u o_num_v o_nc_u o_nc_v o_ctrl o_ku o_kv o_dim].
    unfold nested_step at 2, nested_apply, set_surf_ctrl.
    cbn [on_surf bind fst n_surf n_degree n_kv o_degree_u o_degree_v o_num_u o_num_v o_nc_u o_nc_v o_ctrl o_ku o_kv o_dim].
    destruct (Z.eqb_spec (width a) (o_dim (n_surf c))); [contradiction|]. cbn [negb].
    cbn [on_surf bind fst n_surf n_degree n_kv o_degree_u o_degree_v o_num_u o_num_v o_nc_u o_nc_v o_ctrl o_ku o_kv o_dim].
    unfold nested_step, nested_apply, nested_knots, get_ctrl.
    cbn [n_surf n_degree o_ctrl]. rewrite C. reflexivity. }
  rewrite E. repeat split.
Qed.
Lemma nested_clash (K : Num) (c : nested K) a :
  width a = o_dim (n_surf c) -> nested_step c (NCtrl a) = (c, Some ValueError).
Proof.
  intros W. unfold nested_step, nested_apply, set_surf_ctrl.
  destruct (o_degree_u (n_surf c)), (o_degree_v (n_surf c)); try reflexivity.
  now rewrite W, Z.eqb_refl.
Qed.

(** The surface knot vectors are never stored. *)
Definition no_uv {K : Num} (c : nested K) : Prop :=
  o_nc_u (n_surf c) = None /\ o_nc_v (n_surf c) = None /\
  o_ku (n_surf c) = None /\ o_kv (n_surf c) = None.
Lemma no_uv_step (K : Num) (c : nested K) o : no_uv c -> no_uv (fst (nested_step c o)).
Proof.
  destruct c as [[du dv nu nv cu cv P ku kv dim] d k]. intros (A & B & C & D).
  cbn in A, B, C, D. subst.
  destruct o as [x|x|x|x|x|x|x|x|x|x]; unfold no_uv, nested_step, nested_apply; cbn.
  - unfold nested_degree. destruct (x <? 1); now repeat split.
  - unfold set_surf_ctrl; cbn. destruct du, dv; try (now repeat split).
    destruct (width x =? dim); now repeat split.
  - unfold nested_knots, get_ctrl; cbn. destruct d; [|now repeat split].
    destruct P; [|now repeat split]. destruct (check_knot_vector _ _ _) as [[]| |]; now repeat split.
  - now repeat split.
  - unfold set_degree_u. destruct (x <? 1); now repeat split.
  - unfold set_degree_v. destruct (x <? 1); now repeat split.
  - unfold set_num_u; cbn. destruct du; [|now repeat split]. destruct (x <? _); now repeat split.
  - unfold set_num_v; cbn. destruct dv; [|now repeat split]. destruct (x <? _); now repeat split.
  - unfold set_knot_vector_u; cbn. destruct du, P; now repeat split.
  - unfold set_knot_vector_v; cbn. destruct dv, P; now repeat split.
Qed.
Lemma nested_uv (K : Num) degree degree_u degree_v dimension c0 (ops : list (nested_op K)) :
  nested_init degree degree_u degree_v dimension = Ok c0 ->
  let c := nested_run c0 ops in
  o_ku (n_surf c) = None /\ o_kv (n_surf c) = None /\
  forall kv, exists e f, nested_step c (NKnotsU kv) = (c, Some e) /\ nested_step c (NKnotsV kv) = (c, Some f).
Proof.
  rewrite init_nested. intros [= <-] c.
  assert (H : no_uv c).
  { unfold c. assert (G : forall ops (c : nested K), no_uv c -> no_uv (nested_run c ops)).
    { clear. induction ops as [|o ops IH]; intros c H; [exact H|]. cbn [nested_run fold_left].
      apply IH. now apply no_uv_step. }
    apply G. repeat split. }
  destruct H as (A & B & C & D). split; [exact C|]. split; [exact D|]. intros kv.
  unfold nested_step, nested_apply, set_knot_vector_u, set_knot_vector_v. rewrite A, B.
  destruct (o_degree_u (n_surf c)), (o_degree_v (n_surf c)), (o_ctrl (n_surf c));
    cbn; eexists; eexists; split; reflexivity.
Qed.

(** ** Surfaces *)
Definition private (n : string) : Prop := exists t, n = String "_"%char t.
Lemma assign_keeps (K : Num) (l : list (string * value K)) n : private n ->
  Forall (fun x => ~ private (fst x)) l -> forall a, assign_all a l n = a n.
Proof.
  intros P F. induction F as [|[m v] l N F IH]; intros a; [reflexivity|].
  cbn [assign_all fold_left]. unfold assign_all in IH. rewrite IH. unfold assign. cbn [fst snd].
  destruct (String.eqb m "dimension"); [reflexivity|].
  destruct (String.eqb n m) eqn:E; [|reflexivity].
  apply String.eqb_eq in E. subst. now elim N.
Qed.
Lemma nested_surface (K : Num) dimension (l : list (string * value K)) (u v : K) :
  Forall (fun x => ~ private (fst x)) l ->
  attrs_point (assign_all (geometry_init dimension) l) u v =
  Err (if validate_knot u && validate_knot v then AttributeError else ValueError).
Proof.
  intros F. unfold attrs_point, read.
  rewrite (assign_keeps K l "_num_ctrlpts_u" (ex_intro _ _ eq_refl) F).
  now destruct (validate_knot u), (validate_knot v).
Qed.
Lemma nested_surface_dimension (K : Num) dimension (l : list (string * value K)) :
  Forall (fun x => ~ private (fst x)) l ->
  read (assign_all (geometry_init dimension) l) "_dimension" = Ok (VInt (match dimension with Some d => d | None => 0 end)) /\
  (forall n, private n -> n <> "_dimension"%string -> read (assign_all (geometry_init dimension) l) n = Err AttributeError) /\
  forall v, assign (assign_all (geometry_init dimension) l) "dimension" v = Err AttributeError.
Proof.
  intros F; split; [|split].
  - unfold read; rewrite (assign_keeps K l "_dimension" (ex_intro _ _ eq_refl) F); reflexivity.
  - intros n P N; unfold read; rewrite (assign_keeps K l n P F); unfold geometry_init.
    destruct (String.eqb_spec n "_dimension"); [contradiction|reflexivity].
  - reflexivity.
Qed.
Lemma nested_surface_private (K : Num) dimension (s : surf K) (u v : K) :
  attrs_point (assign_all (geometry_init dimension)
    [("_num_ctrlpts_u"%string, VInt (s_nu s)); ("_num_ctrlpts_v"%string, VInt (s_nv s));
     ("_degree_u"%string, VInt (s_pu s)); ("_degree_v"%string, VInt (s_pv s));
     ("_knot_vector_u"%string, VVec (s_ku s)); ("_knot_vector_v"%string, VVec (s_kv s));
     ("_control_points"%string, VMat (s_ctrl s))]) u v = surf_point s u v.
Proof.
  destruct s. unfold attrs_point. cbn -[validate_knot surf_point]. unfold surf_point.
  now destruct (validate_knot u), (validate_knot v).
Qed.

(** What each request of a curve user does, in every state. *)
Lemma nested_outcomes (K : Num) (c : nested K) :
  (forall u, nested_step c (NInsert u) = (c, Some UnboundLocalError)) /\
  (forall d, (d < 1)%Z -> nested_step c (NDegree d) = (c, Some ValueError)) /\
  (forall d, (1 <= d)%Z -> exists c', nested_step c (NDegree d) = (c', None) /\
     get_degree c' = Ok d /\ get_ctrl c' = get_ctrl c /\ get_kv c' = get_kv c) /\
  (forall kv e, get_degree c = Err e -> nested_step c (NKnots kv) = (c, Some AttributeError)) /\
  (forall kv p, get_degree c = Ok p -> get_ctrl c = None -> nested_step c (NKnots kv) = (c, Some ValueError)) /\
  (forall kv p P, get_degree c = Ok p -> get_ctrl c = Some P -> check_knot_vector p kv (zlen P) = Ok false ->
     nested_step c (NKnots kv) = (c, None)) /\
  (forall kv p P e, get_degree c = Ok p -> get_ctrl c = Some P -> check_knot_vector p kv (zlen P) = Err e ->
     nested_step c (NKnots kv) = (c, Some e)) /\
  (forall kv p P, get_degree c = Ok p -> get_ctrl c = Some P ->
     check_knot_vector p (NdArray kv) (zlen P) = Ok true ->
     exists c', nested_step c (NKnots (NdArray kv)) = (c', None) /\
       get_degree c' = Ok p /\ get_ctrl c' = Some P /\ get_kv c' = Ok kv).
Proof.
  unfold nested_step, nested_apply, nested_degree, nested_knots, get_degree, get_kv.
  repeat split.
  - intros d Hd; now rewrite (proj2 (Z.ltb_lt _ _) Hd).
  - intros d Hd; rewrite (proj2 (Z.ltb_ge _ _) Hd); eexists; repeat split.
  - intros kv e; destruct (n_degree c); [discriminate|reflexivity].
  - intros kv p H1 H2; destruct (n_degree c); [rewrite H2; reflexivity|discriminate].
  - intros kv p P H1 H2 H3; destruct (n_degree c) as [q|]; [injection H1 as ->|discriminate]; rewrite H2, H3; reflexivity.
  - intros kv p P e H1 H2 H3; destruct (n_degree c) as [q|]; [injection H1 as ->|discriminate]; rewrite H2, H3; reflexivity.
  - intros kv p P H1 H2 H3; destruct (n_degree c) as [q|] eqn:E; [injection H1 as ->|discriminate]; rewrite H2, H3.
    eexists; split; [reflexivity|]; split; [reflexivity|]; split; [exact H2|reflexivity].
Qed.

(** What a request leaves alone. *)
Lemma keeps_surf (K : Num) (c c' : nested K) r : on_surf c r = Ok c' ->
  n_degree c' = n_degree c /\ n_kv c' = n_kv c /\ r = Ok (n_surf c').
Proof. unfold on_surf, bind. destruct r; try discriminate. intros H; injection H as <-. repeat split. Qed.
Lemma nested_frame (K : Num) (c : nested K) o :
  let c' := fst (nested_step c o) in
  ((forall d, o <> NDegree d) -> get_degree c' = get_degree c) /\
  ((forall kv, o <> NKnots kv) -> get_kv c' = get_kv c) /\
  ((forall a, o <> NCtrl a) -> get_ctrl c' = get_ctrl c) /\
  (curve_request o -> (forall a, o <> NCtrl a) -> n_surf c' = n_surf c).
Proof.
  cbn zeta. unfold nested_step. destruct (nested_apply c o) as [c'|e|] eqn:E; cbn [fst]; [|repeat split..].
  unfold get_degree, get_kv, get_ctrl in *.
  destruct o; cbn [nested_apply] in E;
    try (apply keeps_surf in E; destruct E as [-> [-> E]]).
  - unfold nested_degree in E. destruct (_ <? _)%Z; [discriminate|]. injection E as <-. cbn. repeat split. intros N; exfalso; eapply N; reflexivity.
  - split; [reflexivity|]. split; [reflexivity|]. split; [intros N|intros _ N]; exfalso; eapply N; reflexivity.
  - unfold nested_knots in E. destruct (n_degree c) eqn:D; [|discriminate]. destruct (get_ctrl c) eqn:G; [|discriminate].
    unfold bind in E. destruct (check_knot_vector _ _ _) as [[]| |]; try discriminate; injection E as <-; cbn; rewrite ?D; repeat split.
    intros N; exfalso; eapply N; reflexivity.
  - discriminate.
  - split; [reflexivity|]. split; [reflexivity|]. split; [intros _|intros []].
    unfold set_degree_u in E. destruct (_ <? _)%Z; [discriminate|]. injection E as <-. reflexivity.
  - split; [reflexivity|]. split; [reflexivity|]. split; [intros _|intros []].
    unfold set_degree_v in E. destruct (_ <? _)%Z; [discriminate|]. injection E as <-. reflexivity.
  - split; [reflexivity|]. split; [reflexivity|]. split; [intros _|intros []].
    unfold set_num_u in E. destruct (o_degree_u _); [|discriminate]. destruct (_ <? _)%Z; [discriminate|]. injection E as <-. reflexivity.
  - split; [reflexivity|]. split; [reflexivity|]. split; [intros _|intros []].
    unfold set_num_v in E. destruct (o_degree_v _); [|discriminate]. destruct (_ <? _)%Z; [discriminate|]. injection E as <-. reflexivity.
  - split; [reflexivity|]. split; [reflexivity|]. split; [intros _|intros []].
    unfold set_knot_vector_u, bind in E.
    repeat match type of E with context [match ?x with _ => _ end] => destruct x eqn:? end; try discriminate; injection E as <-; reflexivity || (cbn; congruence).
  - split; [reflexivity|]. split; [reflexivity|]. split; [intros _|intros []].
    unfold set_knot_vector_v, bind in E.
    repeat match type of E with context [match ?x with _ => _ end] => destruct x eqn:? end; try discriminate; injection E as <-; reflexivity || (cbn; congruence).
Qed.
