(** C01-C05: the span search. *)
From Coq Require Import Floats.
From Verif Require Import Py Num ModelKnots ModelBasis Spec MathKnots ProofSpan ProofSpanX ProofSpan2 Examples.
Open Scope R_scope.

(** C01: on the domain the search returns an index whose control points exist. *)
Theorem C01_find_span_returns : forall p n U u,
  knots_for p n U -> kn U p <= u <= kn U n ->
  exists s, find_span n p (Fin u : Exact) (fin U) = Ok s /\ (p <= s <= n - 1)%Z.
Proof. exact find_span_ok. Qed.
Print Assumptions C01_find_span_returns.
Example C01_example : knots_for 2 6 exU /\ kn exU 2 <= 1/3 <= kn exU 6.
Proof. split; [exact exU_knots|kn_eval; lra]. Qed.

(** C01 for any numbers whose [<] is a strict weak order on the values involved
    (rounding is irrelevant); [d] is never used by [nth] here. *)
Theorem C01_find_span_any_numbers : forall (K : Num) (P : K -> Prop) (rtol u : K) n p kv d,
  weak_order K P -> P u -> Forall P kv -> (0 <= p < n)%Z -> (n < zlen kv)%Z ->
  nltb u (nth (Z.to_nat p) kv d) = false ->
  (isclose_tol rtol lit_1em8 u (nth (Z.to_nat n) kv d) = false -> nltb u (nth (Z.to_nat n) kv d) = true) ->
  exists s, find_span_rtol rtol n p u kv = Ok s /\ (p <= s <= n - 1)%Z /\
   (isclose_tol rtol lit_1em8 u (nth (Z.to_nat n) kv d) = true /\ s = (n - 1)%Z \/
    isclose_tol rtol lit_1em8 u (nth (Z.to_nat n) kv d) = false /\
    nltb u (nth (Z.to_nat s) kv d) = false /\ nltb (nth (Z.to_nat (s + 1)) kv d) u = false).
Proof. exact find_span_generic. Qed.
Print Assumptions C01_find_span_any_numbers.
Example C01_any_example : weak_order Exact is_fin /\ Forall is_fin (fin exU).
Proof. exact (conj exact_weak_order (fin_is_fin exU)). Qed.

(** C02 *)
Theorem C02_find_span_contains : forall p n U u s,
  knots_for p n U -> kn U p <= u <= kn U n ->
  find_span n p (Fin u : Exact) (fin U) = Ok s ->
  close (1/1000000) (1/100000000) u (kn U n) /\ s = (n - 1)%Z \/ kn U s <= u <= kn U (s + 1).
Proof. exact find_span_contains. Qed.
Print Assumptions C02_find_span_contains.
Example C02_example : knots_for 2 6 exU /\ kn exU 2 <= 1/2 <= kn exU 6.
Proof. split; [exact exU_knots|kn_eval; lra]. Qed.

(** C03 *)
Theorem C03_find_span_half_open : forall p n U u,
  knots_for p n U -> kn U p <= u <= kn U n ->
  ~ close (1/1000000) (1/100000000) u (kn U n) -> (forall i, (p < i < n)%Z -> u <> kn U i) ->
  exists s, find_span n p (Fin u : Exact) (fin U) = Ok s /\
    kn U s <= u < kn U (s + 1) /\ (forall s', kn U s' <= u < kn U (s' + 1) -> s' = s).
Proof. exact find_span_unique. Qed.
Print Assumptions C03_find_span_half_open.
Example C03_example : knots_for 2 6 exU /\ kn exU 2 <= 1/3 <= kn exU 6 /\
  ~ close (1/1000000) (1/100000000) (1/3) (kn exU 6) /\ (forall i, (2 < i < 6)%Z -> 1/3 <> kn exU i).
Proof.
  split; [exact exU_knots|split; [kn_eval; lra|split]].
  - unfold close; kn_eval; rewrite Rabs_left, Rabs_right by lra; lra.
  - intros i Hi; assert (i = 3 \/ i = 4 \/ i = 5)%Z as [->|[->| ->]] by lia; kn_eval; lra.
Qed.
Theorem C03_empty_span_refuted : exists (U : list Binary64) (n p : Z) (u x : Binary64) (s : Z),
  check_knot_vector p (NdArray U) n = Ok true /\ validate_knot u = true /\
  find_span n p u U = Ok s /\ aget U s = Ok x /\ aget U (s + 1) = Ok x.
Proof. exact (ex_intro _ wU (ex_intro _ 6%Z (ex_intro _ 2%Z (ex_intro _ _ (ex_intro _ _ (ex_intro _ _ span_empty_witness)))))). Qed.
Print Assumptions C03_empty_span_refuted.

(** C04: no answer outside the domain. *)
Theorem C04_find_span_below_hangs : forall p n U u,
  knots_for p n U -> ~ close (1/1000000) (1/100000000) u (kn U n) -> u < kn U p ->
  find_span n p (Fin u : Exact) (fin U) = Diverge.
Proof. exact find_span_below. Qed.
Print Assumptions C04_find_span_below_hangs.
Theorem C04_find_span_above_hangs : forall p n U u,
  clamped p n U -> (1 <= p)%Z -> ~ close (1/1000000) (1/100000000) u (kn U n) -> kn U n < u ->
  find_span n p (Fin u : Exact) (fin U) = Diverge.
Proof. exact find_span_over. Qed.
Print Assumptions C04_find_span_above_hangs.
(** All outcomes above the domain for unclamped vectors and degree 0. *)
Theorem C04_find_span_above_cases : forall rtol p n U u,
  knots_for p n U -> ~ close rtol (1/100000000) u (kn U n) -> kn U n < u ->
  ((p + 1 < n)%Z -> find_span_rtol (Fin rtol : Exact) n p (Fin u) (fin U) = Diverge) /\
  (n = (p + 1)%Z -> (1 <= p)%Z -> kn U (n + 1) < u ->
     find_span_rtol (Fin rtol : Exact) n p (Fin u) (fin U) = Diverge) /\
  (n = (p + 1)%Z -> (1 <= p)%Z -> u <= kn U (n + 1) ->
     find_span_rtol (Fin rtol : Exact) n p (Fin u) (fin U) = Ok n) /\
  (n = (p + 1)%Z -> p = 0%Z -> find_span_rtol (Fin rtol : Exact) n p (Fin u) (fin U) = Err IndexError).
Proof. exact find_span_above. Qed.
Print Assumptions C04_find_span_above_cases.
(** Infinite parameters hang too; for NaN, which compares false with every knot,
    the first probe is returned. *)
Theorem C04_special : forall p n U, knots_for p n U ->
  find_span n p (NInf : Exact) (fin U) = Diverge /\
  (1 <= p -> find_span n p (PInf : Exact) (fin U) = Diverge)%Z /\
  (1 <= p -> find_span n p (NaN : Exact) (fin U) = Ok ((p + n + 1) / 2))%Z.
Proof. exact span_special. Qed.
Print Assumptions C04_special.
Example C04_special_example : find_span 2 1 (nan : Binary64) [0; 0; 1; 1]%float = Ok 2%Z /\ find_span 2 1 (infinity : Binary64) [0; 0; 1; 1]%float = Diverge.
Proof. vm_compute; split; reflexivity. Qed.
(** [Diverge] really is non-termination: no number of iterations ends the loop.
    For all arguments and all number systems. *)
Theorem C04_divergence_genuine : forall (K : Num) n p (u : K) kv,
  find_span n p u kv = Diverge ->
  forall fuel, span_loop fuel u kv p n (first_mid p n) = Diverge.
Proof. exact find_span_genuine. Qed.
Print Assumptions C04_divergence_genuine.
Example C04_example : knots_for 1 2 exW /\ clamped 1 2 exW /\
  ~ close (1/1000000) (1/100000000) (1/2) (kn exW 2) /\ 1/2 < kn exW 1.
Proof.
  split; [exact (proj1 exW_clamped)|split; [exact exW_clamped|split; [|kn_eval; lra]]].
  unfold close; kn_eval; rewrite Rabs_left, Rabs_right by lra; lra.
Qed.
Example C04_example_float :
  find_span 2 1 (0.5%float : Binary64) [2; 2; 3; 3]%float = Diverge.
Proof. vm_compute; reflexivity. Qed.

(** C05: the end tolerance. *)
Theorem C05_end_tolerance : forall p n U u,
  clamped p n U -> kn U (n - 1) < kn U n -> u <= kn U n ->
  close (1/1000000) (1/100000000) u (kn U n) ->
  find_span n p (Fin u : Exact) (fin U) = Ok (n - 1)%Z /\
  (in_span U (n - 1) u <-> kn U (n - 1) <= u).
Proof. exact find_span_end. Qed.
Print Assumptions C05_end_tolerance.
Example C05_example : clamped 2 6 exU /\ kn exU 5 < kn exU 6 /\
  close (1/1000000) (1/100000000) (1 - 1/10000000) (kn exU 6).
Proof.
  split; [exact exU_clamped|split; [kn_eval; lra|]].
  unfold close; kn_eval; rewrite Rabs_left, Rabs_right by lra; lra.
Qed.
(** An infinite parameter is close to an infinite end knot only. *)
Theorem C05_infinite_end : forall p n (U : list Exact), (0 <= n < zlen U)%Z -> nth (Z.to_nat n) U NaN = PInf ->
  find_span n p (PInf : Exact) U = Ok (n - 1)%Z.
Proof. exact span_infinite_end. Qed.
Print Assumptions C05_infinite_end.
Example C05_infinite_end_example : find_span 2 1 (infinity : Binary64) [0; 0; infinity; infinity]%float = Ok 1%Z.
Proof. vm_compute; reflexivity. Qed.
Theorem C05_negative_basis : forall U n u,
  knots_for 1 n U -> kn U (n - 1) < kn U n -> u < kn U (n - 1) ->
  exists a b, basis_functions (n - 1) (Fin u : Exact) 1 (fin U) = Ok (fin [a; b]) /\ b < 0 /\ 1 < a.
Proof. exact degree1_negative. Qed.
Print Assumptions C05_negative_basis.
Theorem C05_narrow_last_span_refuted : exists (U : list Binary64) (u : Binary64),
  check_knot_vector 1 (NdArray U) 3 = Ok true /\ find_span 3 1 u U = Ok 2%Z /\
  (u <? 0.9999999)%float = true /\
  exists a b : Binary64, basis_functions 2 u 1 U = Ok [a; b] /\ (b <? 0)%float = true.
Proof. exact (ex_intro _ wE (ex_intro _ _ span_end_witness)). Qed.
Print Assumptions C05_narrow_last_span_refuted.
