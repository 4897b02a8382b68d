(** Initial guesses on doubles in terms of a list of sample parameters. *)
From Coq Require Import Reals Lra Lia ZArith List Bool.
From Verif Require Import Py PyLemmas Num ModelKnots ModelBasis ModelCurve ModelSurface ModelParam Spec SpecB64
  ProofB64Param ProofB64Guess ProofB64Sort.
Import ListNotations.
Open Scope R_scope.

Lemma guess_spread n : (1 <= n)%Z -> (2 * n - 1 <= 2 ^ 49)%Z -> exists t : Z -> PrimFloat.float, spread64 (2 * n - 1) t /\
  forall (c : curve_beh Binary64) (P : list PrimFloat.float) (q : Z -> list PrimFloat.float),
  cb_count c = n -> INR (length P) <= 1000 -> within (- 2 ^ 399) (2 ^ 399) P ->
  (forall i, (0 <= i < 2 * n)%Z -> cb_point c (t i : Binary64) = Ok (q i : list Binary64) /\ length (q i) = length P /\
     within (- 2 ^ 399) (2 ^ 399) (q i)) ->
  exists k, (0 <= k < 2 * n)%Z /\ initial_guess_curve c (P : list Binary64) = Ok (t k : Binary64) /\
    ((exists i, (0 <= i < 2 * n)%Z /\ distR (values P) (values (q i)) <= 999999) ->
     forall i, (0 <= i < 2 * n)%Z -> distR (values P) (values (q k)) <=
       (1 + 3 * ((2 * INR (length P) + 6) * ulp64)) * distR (values P) (values (q i)) + / 2 ^ 518) /\
    ((forall i, (0 <= i < 2 * n)%Z -> 1000001 <= distR (values P) (values (q i))) -> k = 0%Z).
Proof.
  intros Hn Hn2; exists (sample64 (2 * n - 1)); split; [apply spread; lia|].
  intros c P q Ec; apply guess64; assumption.
Qed.

Lemma guess_spread_surf nu nv : (1 <= nu)%Z -> (2 * nu - 1 <= 2 ^ 49)%Z -> (1 <= nv)%Z -> (2 * nv - 1 <= 2 ^ 49)%Z ->
  exists s t : Z -> PrimFloat.float, spread64 (2 * nu - 1) s /\ spread64 (2 * nv - 1) t /\
  forall (f : surf_beh Binary64) (P : list PrimFloat.float) (q : Z -> Z -> list PrimFloat.float),
  sb_nu f = nu -> sb_nv f = nv -> INR (length P) <= 1000 -> within (- 2 ^ 399) (2 ^ 399) P ->
  (forall i j, (0 <= i < 2 * nu)%Z -> (0 <= j < 2 * nv)%Z ->
     sb_point f (s i : Binary64) (t j : Binary64) = Ok (q i j : list Binary64) /\ length (q i j) = length P /\
     within (- 2 ^ 399) (2 ^ 399) (q i j)) ->
  exists k l, (0 <= k < 2 * nu)%Z /\ (0 <= l < 2 * nv)%Z /\
    initial_guess_surf f (P : list Binary64) = Ok (s k : Binary64, t l : Binary64) /\
    ((exists i j, (0 <= i < 2 * nu)%Z /\ (0 <= j < 2 * nv)%Z /\ distR (values P) (values (q i j)) <= 999999) ->
     forall i j, (0 <= i < 2 * nu)%Z -> (0 <= j < 2 * nv)%Z -> distR (values P) (values (q k l)) <=
       (1 + 3 * ((2 * INR (length P) + 6) * ulp64)) * distR (values P) (values (q i j)) + / 2 ^ 518) /\
    ((forall i j, (0 <= i < 2 * nu)%Z -> (0 <= j < 2 * nv)%Z -> 1000001 <= distR (values P) (values (q i j))) -> k = 0%Z /\ l = 0%Z).
Proof.
  intros Hu Hu2 Hv Hv2; exists (sample64 (2 * nu - 1)), (sample64 (2 * nv - 1)).
  split; [apply spread; lia|]; split; [apply spread; lia|].
  intros f P q Eu Ev; apply guess_surf64; assumption.
Qed.

Lemma library_guess p P d Q M :
  (1 <= p)%nat -> INR p <= 2 ^ 40 -> (Z.of_nat p + 1 <= len P)%Z -> (len P - Z.of_nat p <= 490000)%Z -> (len P <= 2 ^ 48)%Z ->
  Forall (fun row => length row = 3%nat /\ within (- M) M row) P -> 0 <= M <= 2 ^ 390 ->
  length Q = 3%nat -> within (- 2 ^ 399) (2 ^ 399) Q ->
  exists (U : list PrimFloat.float) (t : Z -> PrimFloat.float), generate_uniform (Z.of_nat p) (len P) = Ok (U : list Binary64) /\
  spread64 (2 * len P - 1) t /\
  let c := mkCurve (K := Binary64) (Some (Z.of_nat p)) (Some P) (Some U) d in
  exists k : Z, (0 <= k < 2 * len P)%Z /\ initial_guess_curve (beh_of_curve c) (Q : list Binary64) = Ok (t k : Binary64) /\
    initial_guess_curve (beh_of_curve3 c) (Q : list Binary64) = Ok (t k : Binary64) /\
    let D i := distR (values Q) (curve_xyz (values U) p (map values P) (value (t i))) in
    let E := 30 * INR (S p) * (ulp64 * M + tiny64) in
    ((exists i, (0 <= i < 2 * len P)%Z /\ D i + E <= 999999) ->
     forall i, (0 <= i < 2 * len P)%Z -> D k <= (1 + 36 * ulp64) * D i + 3 * E + / 2 ^ 518) /\
    ((forall i, (0 <= i < 2 * len P)%Z -> 1000001 + E <= D i) -> k = 0%Z).
Proof.
  intros Hp1 Hp Hn Hb Hb2 HP HM HQ WQ.
  destruct (uniform_guess64 p P Q d (mkBeh (K := Binary64) 0 (fun _ => Diverge) (fun _ => Diverge)) M Hp1 Hp Hn Hb Hb2 HP HM HQ WQ) as (U & EU & _).
  exists U, (sample64 (2 * len P - 1)); split; [exact EU|]; split; [apply spread; lia|]; cbv zeta.
  set (c := mkCurve (K := Binary64) (Some (Z.of_nat p)) (Some P) (Some U) d).
  destruct (uniform_guess64 p P Q d (beh_of_curve c) M Hp1 Hp Hn Hb Hb2 HP HM HQ WQ) as (U' & EU' & H).
  assert (U' = U) by (injection (eq_trans (eq_sym EU') EU); intros G; exact G); subst U'.
  destruct (H eq_refl (fun x => eq_refl)) as (k & Hk & Ek & R); exists k; split; [exact Hk|]; split; [exact Ek|]; split; [exact Ek|exact R].
Qed.

Lemma library_guess_surf p q nu nv P Q M :
  (1 <= p)%nat -> INR p <= 2 ^ 40 -> (1 <= q)%nat -> INR q <= 2 ^ 40 ->
  (p + 1 <= nu)%nat -> (Z.of_nat nu - Z.of_nat p <= 490000)%Z -> (Z.of_nat nu <= 2 ^ 48)%Z ->
  (q + 1 <= nv)%nat -> (Z.of_nat nv - Z.of_nat q <= 490000)%Z -> (Z.of_nat nv <= 2 ^ 48)%Z ->
  length P = (nu * nv)%nat -> Forall (fun row => length row = 3%nat /\ within (- M) M row) P -> 0 <= M <= 2 ^ 390 ->
  length Q = 3%nat -> within (- 2 ^ 399) (2 ^ 399) Q ->
  exists (U V : list PrimFloat.float) (s t : Z -> PrimFloat.float),
  generate_uniform (Z.of_nat p) (Z.of_nat nu) = Ok (U : list Binary64) /\
  generate_uniform (Z.of_nat q) (Z.of_nat nv) = Ok (V : list Binary64) /\
  spread64 (2 * Z.of_nat nu - 1) s /\ spread64 (2 * Z.of_nat nv - 1) t /\
  exists k l : Z, (0 <= k < 2 * Z.of_nat nu)%Z /\ (0 <= l < 2 * Z.of_nat nv)%Z /\
    initial_guess_surf (beh_of_surf (mkSurf (K := Binary64) (Z.of_nat p) (Z.of_nat q) (Z.of_nat nu) (Z.of_nat nv) P U V)) (Q : list Binary64)
      = Ok (s k : Binary64, t l : Binary64) /\
    let D i j := distR (values Q) (surface_xyz (values U) (values V) p q nu nv (map values P) (value (s i)) (value (t j))) in
    let E := 33 * INR (p + q + 1) * (ulp64 * M + tiny64) in
    ((exists i j, (0 <= i < 2 * Z.of_nat nu)%Z /\ (0 <= j < 2 * Z.of_nat nv)%Z /\ D i j + E <= 999999) ->
     forall i j, (0 <= i < 2 * Z.of_nat nu)%Z -> (0 <= j < 2 * Z.of_nat nv)%Z ->
       D k l <= (1 + 36 * ulp64) * D i j + 3 * E + / 2 ^ 518) /\
    ((forall i j, (0 <= i < 2 * Z.of_nat nu)%Z -> (0 <= j < 2 * Z.of_nat nv)%Z -> 1000001 + E <= D i j) -> k = 0%Z /\ l = 0%Z).
Proof.
  intros Hp1 Hp Hq1 Hq Hnu Bu Bu2 Hnv Bv Bv2 HL HP HM HQ WQ.
  destruct (uniform_guess_surf64 p q nu nv P Q (mkSBeh (K := Binary64) 0 0 (fun _ _ => Diverge) (fun _ _ => Diverge)) M
    Hp1 Hp Hq1 Hq Hnu Bu Bu2 Hnv Bv Bv2 HL HP HM HQ WQ) as (U & V & EU & EV & _).
  exists U, V, (sample64 (2 * Z.of_nat nu - 1)), (sample64 (2 * Z.of_nat nv - 1)).
  split; [exact EU|]; split; [exact EV|]; split; [apply spread; lia|]; split; [apply spread; lia|].
  set (s := mkSurf (K := Binary64) (Z.of_nat p) (Z.of_nat q) (Z.of_nat nu) (Z.of_nat nv) P U V).
  destruct (uniform_guess_surf64 p q nu nv P Q (beh_of_surf s) M
    Hp1 Hp Hq1 Hq Hnu Bu Bu2 Hnv Bv Bv2 HL HP HM HQ WQ) as (U' & V' & EU' & EV' & H).
  assert (U' = U) by (injection (eq_trans (eq_sym EU') EU); intros G; exact G); subst U'.
  assert (V' = V) by (injection (eq_trans (eq_sym EV') EV); intros G; exact G); subst V'.
  exact (H eq_refl eq_refl (fun x y => eq_refl)).
Qed.

(** Everything [curve_inversion] and [surface_inversion] return for objects of
    the library lies in [0,1]. *)
Lemma library_curve_range (c : curve_obj Binary64) P e1 e2 mi u :
  curve_inversion (beh_of_curve3 c) P e1 e2 mi = Ok u \/ curve_inversion (beh_of_curve c) P e1 e2 mi = Ok u -> unit64 u.
Proof.
  destruct (curve_unit64 c u) as (H3 & H2 & _).
  intros [E|E]; destruct (ProofParam.curve_result_evaluated _ _ _ _ _ _ _ E) as (m & Em); [exact (H3 _ Em)|exact (H2 _ Em)].
Qed.
