(** Newton's iteration for the nearest point of a curve or surface, as the
    package's inversion performs it: notions used in PropNewton.v.  No model
    function is mentioned. *)
From Verif Require Import Py Num Spec SpecParam.
Open Scope R_scope.

(** The nearest number in [0,1]. *)
Definition clampR (x : R) : R := Rmax 0 (Rmin 1 x).

(** The residual [r] is at most [e1] long, or makes with the (non-zero) tangent
    [t] an angle whose cosine is at most [e2]. *)
Definition right_angle (t r : list R) (e2 : R) : Prop :=
  0 < normR t * normR r /\ Rabs (dotR t r) <= e2 * (normR t * normR r).
Definition curve_near (t r : list R) (e1 e2 : R) : Prop := normR r <= e1 \/ right_angle t r e2.
Definition surf_near (tu tv r : list R) (e1 e2 : R) : Prop := normR r <= e1 \/ (right_angle tu r e2 /\ right_angle tv r e2).

(** ** Curves: position [pt], derivatives [d1], [d2], point [Q] *)
Section CurveNewton.
Variables (pt d1 d2 : R -> list R) (Q : list R).
(** First and second derivative of half the squared distance. *)
Definition slope (u : R) : R := dotR (d1 u) (subR (pt u) Q).
Definition curvature (u : R) : R := dotR (d2 u) (subR (pt u) Q) + dotR (d1 u) (d1 u).
(** From [u] Newton's method goes to [u']; a horizontal tangent of the slope
    sends it to the end of the domain. *)
Definition curve_step (u u' : R) : Prop :=
  (curvature u <> 0 /\ u' = clampR (u - slope u / curvature u)) \/
  (curvature u = 0 /\ 0 < slope u /\ u' = 0) \/ (curvature u = 0 /\ slope u < 0 /\ u' = 1).
(** The step from [u] to [u'] ends the iteration. *)
Definition curve_stop (e1 e2 u u' : R) : Prop :=
  normR (d1 u) * Rabs (u' - u) <= e1 \/ curve_near (d1 u') (subR (pt u') Q) e1 e2.
End CurveNewton.

(** ** Surfaces: position [pt] and partial derivatives *)
Section SurfNewton.
Variables (pt du dv duu dvv duv : R -> R -> list R) (Q : list R).
Definition at2 (f : R -> R -> list R) (w : R * R) : list R := f (fst w) (snd w).
(** Newton's matrix with the partial derivatives at [d] and the residual at [w]. *)
Definition m_uu (d w : R * R) : R := dotR (at2 du d) (at2 du d) + dotR (subR (at2 pt w) Q) (at2 duu d).
Definition m_vv (d w : R * R) : R := dotR (at2 dv d) (at2 dv d) + dotR (subR (at2 pt w) Q) (at2 dvv d).
Definition m_uv (d w : R * R) : R := dotR (at2 du d) (at2 dv d) + dotR (subR (at2 pt w) Q) (at2 duv d).
Definition m_det (d w : R * R) : R := m_uu d w * m_vv d w - m_uv d w * m_uv d w.
Definition surf_step (d w w' : R * R) : Prop := m_det d w <> 0 /\
  exists a b, m_uu d w * a + m_uv d w * b = - dotR (subR (at2 pt w) Q) (at2 du d) /\
              m_uv d w * a + m_vv d w * b = - dotR (subR (at2 pt w) Q) (at2 dv d) /\
              w' = (clampR (fst w + a), clampR (snd w + b)).
Definition surf_stop (e1 e2 : R) (d w w' : R * R) : Prop :=
  normR (map (fun xy => (fst w' - fst w) * fst xy + (snd w' - snd w) * snd xy) (combine (at2 du d) (at2 dv d))) <= e1 \/
  surf_near (at2 du w) (at2 dv w) (subR (at2 pt w') Q) e1 e2.
End SurfNewton.

(** Half the squared distance of [Q] from the curve (surface) with coordinate
    functions [F]. *)
Definition half_sq (F : nat -> R -> R) (Q : list R) (u : R) : R :=
  (F 0%nat u - nth 0 Q 0) * (F 0%nat u - nth 0 Q 0) / 2 + (F 1%nat u - nth 1 Q 0) * (F 1%nat u - nth 1 Q 0) / 2
  + (F 2%nat u - nth 2 Q 0) * (F 2%nat u - nth 2 Q 0) / 2.
Definition half_sq2 (F : nat -> R -> R -> R) (Q : list R) (u v : R) : R := half_sq (fun c => F c u) Q v.
