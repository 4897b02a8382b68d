(** C84-C86: point inversion and parameterization on IEEE 754 doubles. *)
From Coq Require Import Reals Lra Lia ZArith List Floats Permutation Sorted.
From Verif Require Import Py PyLemmas Num ModelKnots ModelBasis ModelCurve ModelSurface ModelParam Spec SpecB64
  ProofB64Param ProofB64Guess ProofB64Sort ProofB64Outcome PropB64 PropParam.
Import ListNotations.
Open Scope R_scope.

(** ** C84: the first guess for a curve.  [t] are the sampled parameters. *)
Theorem C84_guess : forall n, (1 <= n)%Z -> (2 * n - 1 <= 2 ^ 49)%Z -> exists t : Z -> PrimFloat.float, spread64 (2 * n - 1) t /\
  forall (c : curve_beh Binary64) (P : list PrimFloat.float) (q : Z -> list PrimFloat.float),
  cb_count c = n -> INR (length P) <= 1000 -> within (- 2 ^ 399) (2 ^ 399) P ->
  (forall i, (0 <= i < 2 * n)%Z -> cb_point c (t i : Binary64) = Ok (q i : list Binary64) /\ length (q i) = length P /\
     within (- 2 ^ 399) (2 ^ 399) (q i)) ->
  exists k, (0 <= k < 2 * n)%Z /\ initial_guess_curve c (P : list Binary64) = Ok (t k : Binary64) /\
    ((exists i, (0 <= i < 2 * n)%Z /\ distR (values P) (values (q i)) <= 999999) ->
     forall i, (0 <= i < 2 * n)%Z -> distR (values P) (values (q k)) <=
       (1 + 3 * ((2 * INR (length P) + 6) * ulp64)) * distR (values P) (values (q i)) + / 2 ^ 518) /\
    ((forall i, (0 <= i < 2 * n)%Z -> 1000001 <= distR (values P) (values (q i))) -> k = 0%Z).
Proof. exact guess_spread. Qed.
Print Assumptions C84_guess.
(** An object with three control points: the segment (x, 0, 0). *)
Definition seg64 : curve_beh Binary64 := mkBeh (K := Binary64) 3 (fun x => Ok [x; 0; 0]%float) (fun x => Ok [[x; 0; 0]; [1; 0; 0]; [0; 0; 0]]%float).
Lemma small399 a : a <= 1000 -> a <= 2 ^ 399 /\ a <= 2 ^ 390.
Proof.
  intros H; assert (1000 <= 2 ^ 10) by (cbn [pow]; lra).
  assert (2 ^ 10 <= 2 ^ 399) by (apply Rle_pow; [lra|lia]); assert (2 ^ 10 <= 2 ^ 390) by (apply Rle_pow; [lra|lia]); lra.
Qed.
Lemma within_399 l : within (- 1000) 1000 l -> within (- 2 ^ 399) (2 ^ 399) l.
Proof. pose proof (small399 1000 ltac:(lra)); apply Forall_impl; intros x (F & H1); split; [exact F|lra]. Qed.
Example C84_example : forall t, spread64 (2 * 3 - 1) t -> cb_count seg64 = 3%Z /\ INR (length [0.25; 1; 0]%float) <= 1000 /\
  within (- 2 ^ 399) (2 ^ 399) [0.25; 1; 0]%float /\
  forall i, (0 <= i < 2 * 3)%Z -> cb_point seg64 (t i : Binary64) = Ok ([t i; 0; 0]%float : list Binary64) /\
    length [t i; 0; 0]%float = length [0.25; 1; 0]%float /\ within (- 2 ^ 399) (2 ^ 399) [t i; 0; 0]%float.
Proof.
  intros t (Ht & _); split; [reflexivity|]; split; [cbn; lra|]; split; [apply within_399; within_eval|].
  intros i Hi; split; [reflexivity|]; split; [reflexivity|]; apply within_399.
  destruct (Ht i ltac:(lia)) as ((F & V) & _); constructor; [split; [exact F|lra]|within_eval].
Qed.
Example C84_computed : exists u : Binary64, initial_guess_curve seg64 [0.25; 1; 0]%float = Ok u /\ (u =? 0x1.999999999999ap-3)%float = true.
Proof. eexists; split; [vm_compute; reflexivity|vm_compute; reflexivity]. Qed.
(** The error term cannot be dropped: the distances of the two samples round to
    the same double and the farther one is kept. *)
Theorem C84_nearest_refuted : exists (c : curve_beh Binary64) (P q0 q1 : list PrimFloat.float),
  cb_count c = 1%Z /\ length P = 3%nat /\ length q0 = 3%nat /\ length q1 = 3%nat /\
  within (- 1) 1 P /\ within (- 1) 1 q0 /\ within (- 1) 1 q1 /\
  cb_point c (0%float : Binary64) = Ok (q0 : list Binary64) /\ cb_point c (1%float : Binary64) = Ok (q1 : list Binary64) /\
  initial_guess_curve c (P : list Binary64) = Ok (0%float : Binary64) /\
  distR (values P) (values q1) < distR (values P) (values q0).
Proof.
  exists (mkBeh (K := Binary64) 1 (fun x => Ok [1; (1 - x) * 0x1p-30; 0]%float) (fun _ => Diverge)),
    [0; 0; 0]%float, [1; 0x1p-30; 0]%float, [1; 0; 0]%float.
  split; [reflexivity|]; split; [reflexivity|]; split; [reflexivity|]; split; [reflexivity|].
  split; [within_eval|]; split; [within_eval|]; split; [within_eval|].
  split; [vm_compute; reflexivity|]; split; [vm_compute; reflexivity|]; split; [vm_compute; reflexivity|].
  unfold distR, normR; apply sqrt_lt_1.
  - apply ProofParam.dotR_self_nonneg.
  - apply ProofParam.dotR_self_nonneg.
  - assert (E : 0 < value 0x1p-30%float) by (val_eval; lra).
    assert (Z0 : value 0%float = 0) by (val_eval; lra); assert (Z1 : value 1%float = 1) by (val_eval; lra).
    unfold values; cbn [map]; rewrite Z0, Z1; generalize dependent (value 0x1p-30%float); intros; cbn; nra.
Qed.
Print Assumptions C84_nearest_refuted.
(** The library's curve over uniform knots, against the curve itself. *)
Theorem C84_uniform : forall p P d Q M, (1 <= p)%nat -> INR p <= 2 ^ 40 -> (Z.of_nat p + 1 <= len P)%Z -> (len P - Z.of_nat p <= 490000)%Z -> (len P <= 2 ^ 48)%Z ->
  Forall (fun row => length row = 3%nat /\ within (- M) M row) P -> 0 <= M <= 2 ^ 390 ->
  length Q = 3%nat -> within (- 2 ^ 399) (2 ^ 399) Q ->
  exists (U : list PrimFloat.float) (t : Z -> PrimFloat.float), generate_uniform (Z.of_nat p) (len P) = Ok (U : list Binary64) /\
  spread64 (2 * len P - 1) t /\
  let c := mkCurve (K := Binary64) (Some (Z.of_nat p)) (Some P) (Some U) d in
  exists k : Z, (0 <= k < 2 * len P)%Z /\ initial_guess_curve (beh_of_curve c) (Q : list Binary64) = Ok (t k : Binary64) /\
    initial_guess_curve (beh_of_curve3 c) (Q : list Binary64) = Ok (t k : Binary64) /\
    let D i := distR (values Q) (curve_xyz (values U) p (map values P) (value (t i))) in
    let E := 30 * INR (S p) * (ulp64 * M + tiny64) in
    ((exists i, (0 <= i < 2 * len P)%Z /\ D i + E <= 999999) ->
     forall i, (0 <= i < 2 * len P)%Z -> D k <= (1 + 36 * ulp64) * D i + 3 * E + / 2 ^ 518) /\
    ((forall i, (0 <= i < 2 * len P)%Z -> 1000001 + E <= D i) -> k = 0%Z).
Proof. exact library_guess. Qed.
Print Assumptions C84_uniform.
Example C84_uniform_example : (Z.of_nat 3 + 1 <= len fP)%Z /\ (len fP - Z.of_nat 3 <= 490000)%Z /\ (len fP <= 2 ^ 48)%Z /\
  Forall (fun row => length row = 3%nat /\ within (- 6) 6 row) fP /\ 0 <= 6 <= 2 ^ 390 /\
  within (- 2 ^ 399) (2 ^ 399) [2; 2; 0.5]%float.
Proof.
  change (len fP) with 5%Z; split; [lia|]; split; [lia|]; split; [lia|]; split; [exact fP_within|].
  split; [split; [lra|apply small399; lra]|apply within_399; within_eval].
Qed.

(** ** C85: the first guess for a surface *)
Theorem C85_guess : forall nu nv, (1 <= nu)%Z -> (2 * nu - 1 <= 2 ^ 49)%Z -> (1 <= nv)%Z -> (2 * nv - 1 <= 2 ^ 49)%Z ->
  exists s t : Z -> PrimFloat.float, spread64 (2 * nu - 1) s /\ spread64 (2 * nv - 1) t /\
  forall (f : surf_beh Binary64) (P : list PrimFloat.float) (q : Z -> Z -> list PrimFloat.float),
  sb_nu f = nu -> sb_nv f = nv -> INR (length P) <= 1000 -> within (- 2 ^ 399) (2 ^ 399) P ->
  (forall i j, (0 <= i < 2 * nu)%Z -> (0 <= j < 2 * nv)%Z ->
     sb_point f (s i : Binary64) (t j : Binary64) = Ok (q i j : list Binary64) /\ length (q i j) = length P /\
     within (- 2 ^ 399) (2 ^ 399) (q i j)) ->
  exists k l, (0 <= k < 2 * nu)%Z /\ (0 <= l < 2 * nv)%Z /\
    initial_guess_surf f (P : list Binary64) = Ok (s k : Binary64, t l : Binary64) /\
    ((exists i j, (0 <= i < 2 * nu)%Z /\ (0 <= j < 2 * nv)%Z /\ distR (values P) (values (q i j)) <= 999999) ->
     forall i j, (0 <= i < 2 * nu)%Z -> (0 <= j < 2 * nv)%Z -> distR (values P) (values (q k l)) <=
       (1 + 3 * ((2 * INR (length P) + 6) * ulp64)) * distR (values P) (values (q i j)) + / 2 ^ 518) /\
    ((forall i j, (0 <= i < 2 * nu)%Z -> (0 <= j < 2 * nv)%Z -> 1000001 <= distR (values P) (values (q i j))) -> k = 0%Z /\ l = 0%Z).
Proof. exact guess_spread_surf. Qed.
Print Assumptions C85_guess.
Definition plane64 : surf_beh Binary64 := mkSBeh (K := Binary64) 3 2 (fun x y => Ok [x; y; 0]%float) (fun _ _ => Ok []).
Example C85_example : forall s t, spread64 (2 * 3 - 1) s -> spread64 (2 * 2 - 1) t -> sb_nu plane64 = 3%Z /\ sb_nv plane64 = 2%Z /\
  within (- 2 ^ 399) (2 ^ 399) [0.25; 1; 0]%float /\
  forall i j, (0 <= i < 2 * 3)%Z -> (0 <= j < 2 * 2)%Z ->
    sb_point plane64 (s i : Binary64) (t j : Binary64) = Ok ([s i; t j; 0]%float : list Binary64) /\
    length [s i; t j; 0]%float = length [0.25; 1; 0]%float /\ within (- 2 ^ 399) (2 ^ 399) [s i; t j; 0]%float.
Proof.
  intros s t (Hs & _) (Ht & _); split; [reflexivity|]; split; [reflexivity|]; split; [apply within_399; within_eval|].
  intros i j Hi Hj; split; [reflexivity|]; split; [reflexivity|]; apply within_399.
  destruct (Hs i ltac:(lia)) as ((F & V) & _); destruct (Ht j ltac:(lia)) as ((F' & V') & _).
  constructor; [split; [exact F|lra]|]; constructor; [split; [exact F'|lra]|within_eval].
Qed.
Theorem C85_uniform : forall p q nu nv P Q M, (1 <= p)%nat -> INR p <= 2 ^ 40 -> (1 <= q)%nat -> INR q <= 2 ^ 40 ->
  (p + 1 <= nu)%nat -> (Z.of_nat nu - Z.of_nat p <= 490000)%Z -> (Z.of_nat nu <= 2 ^ 48)%Z ->
  (q + 1 <= nv)%nat -> (Z.of_nat nv - Z.of_nat q <= 490000)%Z -> (Z.of_nat nv <= 2 ^ 48)%Z ->
  length P = (nu * nv)%nat -> Forall (fun row => length row = 3%nat /\ within (- M) M row) P -> 0 <= M <= 2 ^ 390 ->
  length Q = 3%nat -> within (- 2 ^ 399) (2 ^ 399) Q ->
  exists (U V : list PrimFloat.float) (s t : Z -> PrimFloat.float),
  generate_uniform (Z.of_nat p) (Z.of_nat nu) = Ok (U : list Binary64) /\
  generate_uniform (Z.of_nat q) (Z.of_nat nv) = Ok (V : list Binary64) /\
  spread64 (2 * Z.of_nat nu - 1) s /\ spread64 (2 * Z.of_nat nv - 1) t /\
  exists k l : Z, (0 <= k < 2 * Z.of_nat nu)%Z /\ (0 <= l < 2 * Z.of_nat nv)%Z /\
    initial_guess_surf (beh_of_surf (mkSurf (K := Binary64) (Z.of_nat p) (Z.of_nat q) (Z.of_nat nu) (Z.of_nat nv) P U V)) (Q : list Binary64)
      = Ok (s k : Binary64, t l : Binary64) /\
    let D i j := distR (values Q) (surface_xyz (values U) (values V) p q nu nv (map values P) (value (s i)) (value (t j))) in
    let E := 33 * INR (p + q + 1) * (ulp64 * M + tiny64) in
    ((exists i j, (0 <= i < 2 * Z.of_nat nu)%Z /\ (0 <= j < 2 * Z.of_nat nv)%Z /\ D i j + E <= 999999) ->
     forall i j, (0 <= i < 2 * Z.of_nat nu)%Z -> (0 <= j < 2 * Z.of_nat nv)%Z ->
       D k l <= (1 + 36 * ulp64) * D i j + 3 * E + / 2 ^ 518) /\
    ((forall i j, (0 <= i < 2 * Z.of_nat nu)%Z -> (0 <= j < 2 * Z.of_nat nv)%Z -> 1000001 + E <= D i j) -> k = 0%Z /\ l = 0%Z).
Proof. exact library_guess_surf. Qed.
Print Assumptions C85_uniform.
Example C85_uniform_example : (2 + 1 <= 5)%nat /\ (Z.of_nat 5 - Z.of_nat 2 <= 490000)%Z /\ (1 + 1 <= 3)%nat /\
  length fQ = (5 * 3)%nat /\ Forall (fun row => length row = 3%nat /\ within (- 7) 7 row) fQ /\ 0 <= 7 <= 2 ^ 390 /\
  within (- 2 ^ 399) (2 ^ 399) [2; 2; 0.5]%float.
Proof.
  split; [lia|]; split; [lia|]; split; [lia|]; split; [reflexivity|]; split; [exact fQ_within|].
  split; [split; [lra|apply small399; lra]|apply within_399; within_eval].
Qed.

(** ** C86: returned parameters and parameterized data *)
Theorem C86_curve : forall (c : curve_beh Binary64) P e1 e2 mi u, (2 * cb_count c - 1 <= 2 ^ 49)%Z ->
  curve_inversion c P e1 e2 mi = Ok u -> (~ number64 u \/ unit64 u) /\ exists m, cb_ders c u = Ok m.
Proof. exact curve_range64. Qed.
Print Assumptions C86_curve.
Theorem C86_surface : forall (s : surf_beh Binary64) P e1 e2 mi u v, (2 * sb_nu s - 1 <= 2 ^ 49)%Z -> (2 * sb_nv s - 1 <= 2 ^ 49)%Z ->
  surface_inversion s P e1 e2 mi = Ok (u, v) ->
  ((~ number64 u \/ unit64 u) /\ (~ number64 v \/ unit64 v)) /\
  ((forall u v q, sb_point s u v = Ok q -> number64 u /\ number64 v) ->
   (forall u v m, sb_ders s u v = Ok m -> Forall (fun r => length r = 3%nat) m) -> unit64 u /\ unit64 v).
Proof. exact surf_range64. Qed.
Print Assumptions C86_surface.
(** The library's own objects refuse NaN, so it never comes back. *)
Theorem C86_library_curve : forall (c : curve_obj Binary64) P e1 e2 mi u,
  curve_inversion (beh_of_curve3 c) P e1 e2 mi = Ok u -> unit64 u.
Proof. intros c P e1 e2 mi u H; exact (library_curve_range c P e1 e2 mi u (or_introl H)). Qed.
Print Assumptions C86_library_curve.
Theorem C86_library_surface : forall (s : surf Binary64) P e1 e2 mi u v, (2 * s_nu s - 1 <= 2 ^ 49)%Z -> (2 * s_nv s - 1 <= 2 ^ 49)%Z ->
  surface_inversion (beh_of_surf s) P e1 e2 mi = Ok (u, v) -> unit64 u /\ unit64 v.
Proof. exact library_surface_range. Qed.
Print Assumptions C86_library_surface.
Example C86_example : exists u v w : Binary64,
  curve_inversion (beh_of_curve3 bowl) [0.25; 1; 0]%float lit_1em5 lit_1em5 100 = Ok u /\
  surface_inversion (beh_of_surf saddle) [0.25; 0.375; 1]%float lit_1em5 lit_1em5 100 = Ok (v, w) /\
  (2 * s_nu saddle - 1 <= 2 ^ 49)%Z /\ (2 * s_nv saddle - 1 <= 2 ^ 49)%Z.
Proof.
  destruct C45_example as (u & Eu & _); destruct C47_example as (v & w & Ev & _).
  exists u, v, w; split; [exact Eu|]; split; [exact Ev|]; split; vm_compute; discriminate.
Qed.
Theorem C86_sorted_curve : forall (c : curve_beh Binary64) (rows out : list (list PrimFloat.float)), Forall (fun r => length r = 3%nat /\ Forall finite64 r) rows ->
  (forall u m, cb_ders c u = Ok m -> unit64 u) ->
  parameterize_curve c (mkData 3 (rows : list (list Binary64))) = Ok (out : list (list Binary64)) ->
  exists us : list PrimFloat.float,
    Forall2 (fun (r : list PrimFloat.float) (u : PrimFloat.float) => curve_inversion c (r : list Binary64) lit_1em5 lit_1em5 100 = Ok (u : Binary64) /\ unit64 u) rows us /\
    Permutation out (map (fun t => fst t ++ [snd t]) (combine rows us)) /\
    StronglySorted (fun a b => lex_le [3%nat; 0%nat; 1%nat; 2%nat] (values a) (values b)) out.
Proof. exact curve_sorted64. Qed.
Print Assumptions C86_sorted_curve.
Theorem C86_sorted_surface : forall (s : surf_beh Binary64) (rows out : list (list PrimFloat.float)), (2 * sb_nu s - 1 <= 2 ^ 49)%Z -> (2 * sb_nv s - 1 <= 2 ^ 49)%Z ->
  Forall (fun r => length r = 3%nat /\ Forall finite64 r) rows ->
  (forall u v q, sb_point s u v = Ok q -> number64 u /\ number64 v) ->
  (forall u v m, sb_ders s u v = Ok m -> Forall (fun r => length r = 3%nat) m) ->
  parameterize_surface s (mkData 3 (rows : list (list Binary64))) = Ok (out : list (list Binary64)) ->
  exists uvs : list (PrimFloat.float * PrimFloat.float),
    Forall2 (fun (r : list PrimFloat.float) (uv : PrimFloat.float * PrimFloat.float) =>
      surface_inversion s (r : list Binary64) lit_1em5 lit_1em5 100 = Ok (uv : Binary64 * Binary64) /\ unit64 (fst uv) /\ unit64 (snd uv)) rows uvs /\
    Permutation out (map (fun t => fst t ++ [fst (snd t); snd (snd t)]) (combine rows uvs)) /\
    StronglySorted (fun a b => lex_le [3%nat; 4%nat; 0%nat; 1%nat; 2%nat] (values a) (values b)) out.
Proof. exact surface_sorted64. Qed.
Print Assumptions C86_sorted_surface.
Example C86_sorted_example : exists out : list (list Binary64),
  parameterize_curve (beh_of_curve3 bowl) (mkData (K := Binary64) 3 [[1; 0; 0]; [0.5; 1; 1]; [0; 0; 0]]%float) = Ok out /\
  Forall (fun r => length r = 3%nat /\ Forall finite64 r) [[1; 0; 0]; [0.5; 1; 1]; [0; 0; 0]]%float /\
  forall u m, cb_ders (beh_of_curve3 bowl) u = Ok m -> unit64 u.
Proof.
  pose proof (proj1 C49_example) as H.
  destruct (parameterize_curve (beh_of_curve3 bowl) (mkData (K := Binary64) 3 [[1; 0; 0]; [0.5; 1; 1]; [0; 0; 0]]%float)) as [out| |]; try discriminate H.
  exists out; split; [reflexivity|]; split.
  - repeat (apply Forall_cons; [split; [reflexivity|repeat (apply Forall_cons; [vm_compute; exact I|]); apply Forall_nil]|]); apply Forall_nil.
  - intros u m E; exact (proj1 (curve_unit64 bowl u) m E).
Qed.
