(** Notions for the problem objects. *)
From Coq Require Import Ascii String.
From Verif Require Import Py Num ModelKnots ModelCurve ModelParam ModelFit ModelIO ModelData.
Open Scope Z_scope.

(** [int(x)] of a float that is not [<= 0] is not negative. *)
Definition int_of_positive (K : Num) := forall (x : K) z, (x <=? (0 : K))%num = false -> ntrunc x = Some z -> 0 <= z.

(** An assignment to one of the six attributes. *)
Definition assignment {K : Num} (o : bp_op K) : bool := match o with BInit | BParam | BFit => false | _ => true end.

(** Assigning a Boundary object on which the caller has set attributes by hand. *)
Definition planted {K : Num} (o : ip_op K) : Prop :=
  match o with ITop (OBoundary (Some _)) | IBottom (OBoundary (Some _)) => True | _ => False end.

(** Assigning an object with a method [shape]. *)
Definition method_shape {K : Num} (o : do_op K) : Prop :=
  match o with DData (SMethod _ _) | DStart (SMethod _ _) | DEnd (SMethod _ _) => True | _ => False end.

(** Position (i,j) of a net of nu rows and nv columns is in an outer row or column. *)
Definition on_edge (nu nv i j : nat) := i = 0%nat \/ i = (nu - 1)%nat \/ j = 0%nat \/ j = (nv - 1)%nat.

(** ** What an assignment sets *)
(** The integer a value stands for: [int(v)]. *)
Definition int_value {K : Num} (v : pyval K) : option Z :=
  match v with
  | VInt z => Some z
  | VBool b => Some (if b then 1 else 0)
  | VFloat x => ntrunc x
  | VStr s => match py_int s with Ok z => Some z | _ => None end
  | VOther => None
  end.
(** An acceptable degree, as stored: a number that is not [<= 0], cut to an integer. *)
Definition degree_value {K : Num} (v : pyval K) : option Z :=
  match v with
  | VInt z => if 1 <=? z then Some z else None
  | VBool b => if b then Some 1 else None
  | VFloat x => if (x <=? (0 : K))%num then None else ntrunc x
  | VStr _ | VOther => None
  end.
Definition count_value {K : Num} (least : Z) (v : pyval K) : option Z :=
  match int_value v with Some n => if least <=? n then Some n else None | None => None end.
Definition array_value {K : Num} (a : res (nd K)) : option (data_array K) :=
  match a with Ok (Nd2 d) => if (dt_cols d =? 2) || (dt_cols d =? 3) then Some d else None | _ => None end.
Definition point_value {K : Num} (a : res (nd K)) : option (list K) :=
  match a with Ok (Nd1 l) => if (length l =? 2)%nat || (length l =? 3)%nat then Some l else None | _ => None end.
(** The method: is it 'adaptive'? *)
Definition method_value {K : Num} (v : pyval K) : option bool :=
  match v with
  | VStr s => if list_eq_dec Ascii.ascii_dec s (txt "fixed") then Some false
              else if list_eq_dec Ascii.ascii_dec s (txt "adaptive") then Some true else None
  | _ => None
  end.
Definition boundary_value {K : Num} (o : bobj K) : option (bproblem K) :=
  match o with OBoundary (Some b) => match bp_fit b with Some _ => Some b | None => None end | _ => None end.

(** What a refused assignment raises. *)
Definition degree_refusal {K : Num} (v : pyval K) : exn :=
  match v with
  | VStr _ | VOther => TypeError
  | VFloat x => if (x <=? (0 : K))%num then ValueError else if (x =? x)%num then OverflowError else ValueError
  | _ => ValueError
  end.
Definition count_refusal {K : Num} (v : pyval K) : exn :=
  match v with
  | VOther => TypeError
  | VFloat x => match ntrunc x with Some _ => ValueError | None => if (x =? x)%num then OverflowError else ValueError end
  | _ => ValueError
  end.
Definition method_refusal {K : Num} (v : pyval K) : exn := match v with VStr _ => ValueError | _ => TypeError end.
Definition boundary_refusal {K : Num} (o : bobj K) : exn :=
  match o with OBoundary None => AttributeError | OBoundary (Some _) => ValueError | OProblem _ | OOther => TypeError end.

(** The last value that [f] finds in a history. *)
Fixpoint latest {A B} (f : A -> option B) (l : list A) : option B :=
  match l with
  | [] => None
  | x :: l => match latest f l with Some y => Some y | None => f x end
  end.
Definition degree_set {K : Num} (o : bp_op K) := match o with BDegree v => degree_value v | _ => None end.
Definition data_set {K : Num} (o : bp_op K) := match o with BData a => array_value a | _ => None end.
Definition start_set {K : Num} (o : bp_op K) := match o with BStart a => point_value a | _ => None end.
Definition end_set {K : Num} (o : bp_op K) := match o with BEnd a => point_value a | _ => None end.
Definition num_set {K : Num} (o : bp_op K) := match o with BNum v => count_value 4 v | _ => None end.
Definition method_set {K : Num} (o : bp_op K) := match o with BMethod v => method_value v | _ => None end.
Definition idegree_set {K : Num} (o : ip_op K) := match o with IDegree v => degree_value v | _ => None end.
Definition idata_set {K : Num} (o : ip_op K) := match o with IData a => array_value a | _ => None end.
Definition inum_set {K : Num} (o : ip_op K) := match o with INum v => count_value 3 v | _ => None end.
Definition top_set {K : Num} (o : ip_op K) := match o with ITop b => boundary_value b | _ => None end.
Definition bottom_set {K : Num} (o : ip_op K) := match o with IBottom b => boundary_value b | _ => None end.
Definition newer {A} (new old : option A) : option A := match new with Some _ => new | None => old end.
(** What a Data or Boundary object of dimension [dim] takes for a checked
    attribute, and how it refuses the rest. *)
Definition shape_value {K : Num} (dim : Z) (x : shaped K) : option (shaped K) :=
  match x with SMethod _ (Ok d) => if d =? dim then Some x else None | _ => None end.
Definition shape_refusal {K : Num} (x : shaped K) : res unit :=
  match x with
  | SArray _ => Err TypeError
  | SBare _ => Err AttributeError
  | SMethod _ (Ok _) => Err ValueError
  | SMethod _ (Err e) => Err e
  | SMethod _ Diverge => Diverge
  end.
Definition ddata_set {K : Num} (dim : Z) (o : do_op K) := match o with DData x => shape_value dim x | _ => None end.
Definition dstart_set {K : Num} (boundary : bool) (dim : Z) (o : do_op K) :=
  match o with DStart x => if boundary then shape_value dim x else Some x | _ => None end.
Definition dend_set {K : Num} (boundary : bool) (dim : Z) (o : do_op K) :=
  match o with DEnd x => if boundary then shape_value dim x else Some x | _ => None end.
