(** Model of spline/algorithms/knots.py and spline/util/validation.py. *)
From Verif Require Import Py Num.
Open Scope Z_scope.

Section Knots.
Context {K : Num}.

(** knots.py:54-59, the bisection [while] loop.  [fuel] bounds the number of
    evaluations of the loop condition; running out is [Diverge] (theorem
    [find_span_fuel_adequate] shows that the fuel given by [find_span_rtol]
    runs out only if the loop never ends).  [int((low + high) / 2)] is modelled
    by integer division truncating towards zero (C79_probes). *)
Fixpoint span_loop (fuel : nat) (knot : K) (kv : list K) (low high mid : Z) : res Z :=
  match fuel with
  | O => Diverge
  | S f =>
      let* um := aget kv mid in
      let* again := (if (knot <? um)%num then Ok true
                     else let* um1 := aget kv (mid + 1) in Ok (um1 <? knot)%num) in
      if again then
        if (knot <? um)%num
        then span_loop f knot kv low mid (Z.quot (low + mid) 2)
        else span_loop f knot kv mid high (Z.quot (mid + high) 2)
      else Ok mid
  end.

(** knots.py:46-52, the first probe. *)
Definition first_mid (low high : Z) : Z :=
  let mid_sum := low + high in
  if mid_sum mod 2 =? 0 then mid_sum / 2 else (mid_sum + 1) / 2.

(** knots.py:10-61 with an explicit [rtol].  [np.allclose] on two scalars is
    [isclose] with atol=1e-8. *)
Definition find_span_rtol (rtol : K) (num_ctrlpts degree : Z) (knot : K)
  (kv : list K) : res Z :=
  let* un := aget kv num_ctrlpts in
  if isclose_tol rtol lit_1em8 knot un then Ok (num_ctrlpts - 1)
  else span_loop (Z.to_nat (Z.abs (num_ctrlpts - degree)) + 3)%nat knot kv degree
         num_ctrlpts (first_mid degree num_ctrlpts).

(** knots.py:10-61 with the default [rtol] of line 38. *)
Definition find_span (num_ctrlpts degree : Z) (knot : K) (kv : list K) : res Z :=
  find_span_rtol lit_1em6 num_ctrlpts degree knot kv.

(** An argument that may be a numpy array or a plain Python list (only the
    former has [.shape]). *)
Inductive arraylike := NdArray (l : list K) | PyList (l : list K).

Definition is_nan (x : K) : bool := negb (x =? x)%num.

(** [np.max] / [np.min]: NaN propagates, empty input raises. *)
Definition np_max (l : list K) : res K :=
  match l with
  | [] => Err ValueError
  | x :: t => Ok (fold_left (fun m y => if is_nan m then m else if is_nan y then y
                                        else if (m <? y)%num then y else m) t x)
  end.
Definition np_min (l : list K) : res K :=
  match l with
  | [] => Err ValueError
  | x :: t => Ok (fold_left (fun m y => if is_nan m then m else if is_nan y then y
                                        else if (y <? m)%num then y else m) t x)
  end.

(** knots.py:64-83.  [np.max]/[np.min] accept a list, [.shape] does not. *)
Definition normalize (kv : arraylike) : res (list K) :=
  let l := match kv with NdArray l | PyList l => l end in
  let* max_knot := np_max l in
  let* min_knot := np_min l in
  match kv with
  | PyList _ => Err AttributeError
  | NdArray l =>
      let normalized := map (fun x => (x - min_knot * 1)%num) l in
      let factor := (1 / (max_knot - min_knot))%num in
      Ok (map (fun x => (x * factor)%num) normalized)
  end.

(** [np.allclose(a, b)] on 1-D arrays, with numpy broadcasting. *)
Definition allclose (a b : list K) : res bool :=
  if zlen a =? zlen b then
    Ok (forallb (fun xy => isclose (fst xy) (snd xy)) (combine a b))
  else match a, b with
       | _, [y] => Ok (forallb (fun x => isclose x y) a)
       | [x], _ => Ok (forallb (fun y => isclose x y) b)
       | _, _ => Err ValueError
       end.

(** knots.py:116-121, the ordering loop. *)
Fixpoint increasing_from (previous_knot : K) (l : list K) : bool :=
  match l with
  | [] => true
  | knot :: t => if (knot <? previous_knot)%num then false else increasing_from knot t
  end.

(** knots.py:86-121. *)
Definition check_knot_vector (degree : Z) (kv : arraylike) (num_ctrlpts : Z) : res bool :=
  let* nv := normalize kv in
  if negb (zlen nv =? num_ctrlpts + degree + 1) then Ok false else
  let* zeros := np_full (degree + 1) (0 : K)%num in
  let* c1 := allclose zeros (slice nv 0 (degree + 1)) in
  if negb c1 then Ok false else
  let* ones := np_full (degree + 1) (1 : K)%num in
  let* e := aget nv (-1 * (degree + 1)) in
  let* c2 := allclose ones [e] in
  if negb c2 then Ok false else
  let* previous_knot := aget nv 0 in
  Ok (increasing_from previous_knot nv).

(** [np.linspace(start, stop, num)] (numpy 1.x: arange * step + start, the last
    element overwritten by [stop]; when the step is 0 the division comes first). *)
Definition np_linspace (start stop : K) (num : Z) : res (list K) :=
  if num <? 0 then Err ValueError else
  let div := num - 1 in
  let delta := (stop - start)%num in
  let idx := map ofZ (zrange 0 num) in
  if 0 <? div then
    let step := (delta / ofZ div)%num in
    let y := if (step =? 0)%num
             then map (fun i => (i / ofZ div * delta + start)%num) idx
             else map (fun i => (i * step + start)%num) idx in
    aset y (-1) stop
  else Ok (map (fun i => (i * delta + start)%num) idx).

(** knots.py:124-148. *)
Definition generate_uniform (degree num_ctrlpts : Z) : res (list K) :=
  let length_knot_vector := num_ctrlpts + degree + 1 in
  let num_middle_knots := length_knot_vector - 2 * degree in
  let* middle := np_linspace 0%num 1%num num_middle_knots in
  let* zeros := np_full degree (0 : K)%num in
  let* ones := np_full degree (1 : K)%num in
  Ok (zeros ++ middle ++ ones).

(** knots.py:151-171. *)
Fixpoint find_multiplicity (knot : K) (kv : list K) : Z :=
  match kv with
  | [] => 0
  | knot_span :: t =>
      (if isclose knot knot_span then 1 else 0) + find_multiplicity knot t
  end.

(** knots.py:237-246, one round [j] of the insertion loop, on
    (new_ctrlpts, R). *)
Definition insertion_round (degree k s num_inserts : Z) (knot : K) (old_kv : list K)
  (j : Z) (st : list (list K) * list (list K)) : res (list (list K) * list (list K)) :=
  let L := k - degree + j in
  let* r' :=
    for_range 0 (degree - j - s + 1) (fun i r =>
      let* ul := aget old_kv (L + i) in
      let* ur := aget old_kv (i + k + 1) in
      let alpha := ((knot - ul) / (ur - ul))%num in
      let* r1 := aget r (i + 1) in
      let* r0 := aget r i in
      aset_row r i (vadd (vscale alpha r1) (vscale (1 - alpha)%num r0))) (snd st) in
  let* first := aget r' 0 in
  let* c1 := aset_row (fst st) L first in
  let* last := aget r' (degree - j - s) in
  let* c2 := aset_row c1 (k + num_inserts - j - s) last in
  Ok (c2, r').

(** knots.py:174-253. *)
Definition curve_knot_insertion (degree : Z) (old_kv : list K) (old_ctrlpts : list (list K))
  (knot : K) (num_inserts : Z) : res (list K * list (list K)) :=
  let n := zlen old_ctrlpts in
  let* k := find_span n degree knot old_kv in                      (* line 203 *)
  let s := find_multiplicity knot old_kv in                        (* line 205 *)
  let old_len := n + degree + 1 in
  let new_len := zlen old_kv + num_inserts in
  let* new_kv := np_full new_len (0 : K)%num in
  let* new_ctrlpts := np_full2 (n + num_inserts) 3 (0 : K)%num in
  let* R := np_full2 (degree + 1) 3 (0 : K)%num in
  let* new_kv := for_range 0 (k + 1) (fun i a =>                   (* 217-218 *)
      let* x := aget old_kv i in aset a i x) new_kv in
  let* new_kv := for_range 1 (num_inserts + 1) (fun i a =>         (* 220-221 *)
      aset a (k + i) knot) new_kv in
  let* new_kv := for_range (k + 1) old_len (fun i a =>             (* 223-224 *)
      let* x := aget old_kv i in aset a (i + num_inserts) x) new_kv in
  let* new_ctrlpts := for_range 0 (k - degree + 1) (fun i c =>     (* 227-228 *)
      let* row := aget old_ctrlpts i in aset_row c i row) new_ctrlpts in
  let* new_ctrlpts := for_range (k - s) n (fun i c =>              (* 230-231 *)
      let* row := aget old_ctrlpts i in aset_row c (i + num_inserts) row) new_ctrlpts in
  let* R := for_range 0 (degree - s + 1) (fun i r =>               (* 233-234 *)
      let* row := aget old_ctrlpts (k - degree + i) in aset_row r i row) R in
  let* cr := for_range 1 (num_inserts + 1)                         (* 237-246 *)
      (insertion_round degree k s num_inserts knot old_kv) (new_ctrlpts, R) in
  let new_ctrlpts := fst cr in
  let R := snd cr in
  let L := k - degree + num_inserts in                             (* 249-251 *)
  let* new_ctrlpts := for_range (L + 1) (k - s) (fun i c =>
      let* row := aget R (i - L) in aset_row c i row) new_ctrlpts in
  Ok (new_kv, new_ctrlpts).

(** spline/util/validation.py:7-21. *)
Definition validate_knot (knot : K) : bool := (0 <=? knot)%num && (knot <=? 1)%num.

End Knots.
Arguments arraylike K : clear implicits.
