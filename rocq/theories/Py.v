(** Python runtime pieces used by the model: exceptions as values, list/array
    indexing with negative wrap-around, slices, [range] loops.
    Models the language/numpy behaviour the code in /repo relies on; no single
    source line. *)
From Coq Require Export List ZArith Lia Bool.
Export ListNotations.
Open Scope Z_scope.

(** Exceptions that can leave a modelled function. *)
Inductive exn :=
| ValueError | TypeError | IndexError | AttributeError | NameError
| UnboundLocalError | ImportError | KeyError | ZeroDivisionError
| FileNotFoundError | UnsupportedOperation | LinAlgError | ModuleNotFoundError
| OverflowError | PermissionError | IsADirectoryError.

(** Outcome of a call: a value, an exception, or a loop that never ends. *)
Inductive res (A : Type) :=
| Ok (a : A)
| Err (e : exn)
| Diverge.
Arguments Ok {A} a.
Arguments Err {A} e.
Arguments Diverge {A}.

Definition bind {A B} (m : res A) (k : A -> res B) : res B :=
  match m with Ok a => k a | Err e => Err e | Diverge => Diverge end.
Notation "'let*' x ':=' m 'in' k" := (bind m (fun x => k))
  (at level 200, x pattern, m at level 100, k at level 200, right associativity).

Definition zlen {A} (l : list A) : Z := Z.of_nat (length l).

(** [l[i]]: Python/numpy indexing, negative indices count from the end. *)
Definition aget {A} (l : list A) (i : Z) : res A :=
  let j := if i <? 0 then i + zlen l else i in
  if (0 <=? j) && (j <? zlen l) then
    match nth_error l (Z.to_nat j) with Some a => Ok a | None => Err IndexError end
  else Err IndexError.

(** List update at a position known to be in range. *)
Fixpoint upd {A} (l : list A) (n : nat) (v : A) : list A :=
  match l, n with
  | [], _ => []
  | _ :: t, O => v :: t
  | h :: t, S m => h :: upd t m v
  end.

(** [l[i] = v]: returns the new array. *)
Definition aset {A} (l : list A) (i : Z) (v : A) : res (list A) :=
  let j := if i <? 0 then i + zlen l else i in
  if (0 <=? j) && (j <? zlen l) then Ok (upd l (Z.to_nat j) v)
  else Err IndexError.

(** Bound of a slice: negative counts from the end, clipped to [0, len]. *)
Definition slice_bound (len i : Z) : Z :=
  if i <? 0 then Z.max 0 (len + i) else Z.min i len.

(** [l[a:b]]. *)
Definition slice {A} (l : list A) (a b : Z) : list A :=
  let a' := slice_bound (zlen l) a in
  let b' := slice_bound (zlen l) b in
  firstn (Z.to_nat (b' - a')) (skipn (Z.to_nat a') l).

(** [range(a, b)]. *)
Definition zrange (a b : Z) : list Z :=
  map (fun k => a + Z.of_nat k) (seq 0 (Z.to_nat (b - a))).

(** [for i in l: s = body(i, s)] with exceptions. *)
Fixpoint for_list {X S} (l : list X) (body : X -> S -> res S) (s : S) : res S :=
  match l with
  | [] => Ok s
  | x :: t => let* s' := body x s in for_list t body s'
  end.

(** [for i in range(a, b)]. *)
Definition for_range {S} (a b : Z) (body : Z -> S -> res S) (s : S) : res S :=
  for_list (zrange a b) body s.

(** [[f(x) for x in l]] where [f] may raise. *)
Fixpoint mapM {X Y} (f : X -> res Y) (l : list X) : res (list Y) :=
  match l with
  | [] => Ok []
  | x :: t => let* y := f x in let* ys := mapM f t in Ok (y :: ys)
  end.

(** [np.full(n, v)] (so [np.zeros], [np.ones]); negative sizes raise. *)
Definition np_full {A} (n : Z) (v : A) : res (list A) :=
  if n <? 0 then Err ValueError else Ok (repeat v (Z.to_nat n)).

(** [np.full((n, m), v)]. *)
Definition np_full2 {A} (n m : Z) (v : A) : res (list (list A)) :=
  if (n <? 0) || (m <? 0) then Err ValueError
  else Ok (repeat (repeat v (Z.to_nat m)) (Z.to_nat n)).

(** [m[i, j]] and [m[i, j] = v] for an array of rows. *)
Definition aget2 {A} (m : list (list A)) (i j : Z) : res A :=
  let* r := aget m i in aget r j.
Definition aset2 {A} (m : list (list A)) (i j : Z) (v : A) : res (list (list A)) :=
  let* r := aget m i in let* r' := aset r j v in aset m i r'.

(** numpy broadcasting of a 1-D value into a row of width [w]: equal widths
    copy, width 1 repeats, anything else is a [ValueError]. *)
Definition broadcast {A} (w : Z) (v : list A) : res (list A) :=
  if zlen v =? w then Ok v
  else match v with
       | [x] => Ok (repeat x (Z.to_nat w))
       | _ => Err ValueError
       end.

(** [m[i, :] = v]. *)
Definition aset_row {A} (m : list (list A)) (i : Z) (v : list A) : res (list (list A)) :=
  let* r := aget m i in let* v' := broadcast (zlen r) v in aset m i v'.

(** [m[:, j]]. *)
Definition acol {A} (m : list (list A)) (j : Z) : res (list A) :=
  mapM (fun r => aget r j) m.
