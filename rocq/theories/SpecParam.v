(** Notions used in the statements about parameterisation (PropParam.v). *)
From Verif Require Import Py Num ModelCurve ModelSurface ModelParam Spec.
Open Scope R_scope.

(** A curve object that is the segment from [A] to [B], uniformly parameterised. *)
Definition acts_as_line (c : curve_beh Exact) (A B : list R) : Prop :=
  forall u, 0 <= u <= 1 -> cb_point c (Fin u : Exact) = Ok (fin (lerp A B u)) /\
    exists rest, cb_ders c (Fin u : Exact) = Ok (fin2 ([lerp A B u; subR B A; [0; 0; 0]] ++ rest)).

(** A parameter value in [0,1]. *)
Definition unit_fin (x : Exact) : Prop := exists r, x = Fin r /\ 0 <= r <= 1.

(** The parallelogram O + u A + v B, and a surface object that is one. *)
Definition patch (O A B : list R) (u v : R) : list R :=
  map (fun i => nth i O 0 + u * nth i A 0 + v * nth i B 0) (seq 0 3).
Definition acts_as_patch (s : surf_beh Exact) (O A B : list R) : Prop :=
  forall u v, 0 <= u <= 1 -> 0 <= v <= 1 -> sb_point s (Fin u : Exact) (Fin v : Exact) = Ok (fin (patch O A B u v)) /\
    exists r5 rest, sb_ders s (Fin u : Exact) (Fin v : Exact) =
      Ok (fin2 ([patch O A B u v; B; [0; 0; 0]; A; [0; 0; 0]; r5; [0; 0; 0]] ++ rest)).

(** A [derivatives] method that always yields at least seven 3-vectors (as for
    degrees >= 2). *)
Definition full_ders {K : Num} (ders : K -> K -> res (list (list K))) : Prop :=
  forall u v, exists m, ders u v = Ok m /\ (7 <= length m)%nat /\ Forall (fun r => length r = 3%nat) m.

(** The two acceptance tests of the curve inversion hold at [u]: distance, or
    angle. *)
Definition curve_accepts {K : Num} (c : curve_beh K) (P : list K) (e1 e2 u : K) : Prop :=
  (exists d, curve_dist c P u = Ok d /\ (d <=? e1)%num = true) \/
  (exists pt d1 d2 x, curve_rows c u = Ok (pt, d1, d2) /\ curve_cos pt d1 P = Ok x /\ (x <=? e2)%num = true).
(** Distance or angle test of the surface inversion at (u,v), the tangents being
    those at (a,b). *)
Definition surf_accepts {K : Num} (s : surf_beh K) (P : list K) (e1 e2 a b u v : K) : Prop :=
  exists r, surf_res s P u v = Ok r /\
    ((vnorm r <=? e1)%num = true \/
     exists d x y, get_surf_rows s a b = Ok d /\ surf_cos (sr_u d) r = Ok x /\ surf_cos (sr_v d) r = Ok y /\
       (x <=? e2)%num = true /\ (y <=? e2)%num = true).

(** The polynomial a curve coordinate is on span [s]. *)
Definition curve_piece (U : list R) (s : Z) (p : nat) (c : list R) (u : R) : R :=
  zsum 0 (length c) (fun i => piece U s p i u * nth (Z.to_nat i) c 0).

(** A curve object in space that evaluates to [pt], with first and second
    derivatives [d1], [d2], on [0,1] and refuses every other parameter. *)
Definition proper_curve (c : curve_beh Exact) (pt d1 d2 : R -> list R) : Prop :=
  (forall u, 0 <= u <= 1 -> cb_point c (Fin u : Exact) = Ok (fin (pt u)) /\
     length (pt u) = 3%nat /\ length (d1 u) = 3%nat /\ length (d2 u) = 3%nat /\
     exists rest, cb_ders c (Fin u : Exact) = Ok (fin2 ([pt u; d1 u; d2 u] ++ rest))) /\
  (forall u, ~ unit_fin u -> cb_ders c u = Err ValueError).
(** A surface object in space with partial derivatives as named. *)
Definition proper_surface (s : surf_beh Exact) (pt du dv duu dvv duv : R -> R -> list R) : Prop :=
  forall u v, 0 <= u <= 1 -> 0 <= v <= 1 -> sb_point s (Fin u : Exact) (Fin v : Exact) = Ok (fin (pt u v)) /\
    length (pt u v) = 3%nat /\ length (du u v) = 3%nat /\ length (dv u v) = 3%nat /\
    length (duu u v) = 3%nat /\ length (dvv u v) = 3%nat /\ length (duv u v) = 3%nat /\
    exists r0 r5 rest, sb_ders s (Fin u : Exact) (Fin v : Exact) =
      Ok (fin2 ([r0; dv u v; dvv u v; du u v; duv u v; r5; duu u v] ++ rest)).
