(** Notions used in the statements about convergence (PropConv.v). *)
From Verif Require Import Spec.
Open Scope R_scope.

(** Distance of two pairs of parameters. *)
Definition gap (w r : R * R) : R := Rmax (Rabs (fst w - fst r)) (Rabs (snd w - snd r)).
