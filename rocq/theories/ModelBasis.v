(** Model of spline/algorithms/basis.py. *)
From Verif Require Import Py Num.
Open Scope Z_scope.

Section Basis.
Context {K : Num}.

(** basis.py:47-50, inner loop body of [basis_functions]; state (N, saved). *)
Definition bf_inner (lft rgt : list K) (j : Z) (r : Z) (st : list K * K) : res (list K * K) :=
  let* nr := aget (fst st) r in
  let* rr := aget rgt (r + 1) in
  let* lj := aget lft (j - r) in
  let temp := (nr / (rr + lj))%num in
  let* N' := aset (fst st) r (snd st + rr * temp)%num in
  Ok (N', (lj * temp)%num).

(** basis.py:41-52, outer loop body; state (N, lft, rgt). *)
Definition bf_round (knot_span : Z) (knot : K) (kv : list K) (j : Z)
  (st : list K * list K * list K) : res (list K * list K * list K) :=
  let '(N, lft, rgt) := st in
  let* ul := aget kv (knot_span + 1 - j) in
  let* lft := aset lft j (knot - ul)%num in
  let* ur := aget kv (knot_span + j) in
  let* rgt := aset rgt j (ur - knot)%num in
  let* ns := for_range 0 j (bf_inner lft rgt j) (N, 0%num) in
  let* N := aset (fst ns) j (snd ns) in
  Ok (N, lft, rgt).

(** basis.py:10-54 [basis_functions]. *)
Definition basis_functions (knot_span : Z) (knot : K) (degree : Z) (kv : list K) : res (list K) :=
  let* N := np_full (degree + 1) (1 : K)%num in
  let* lft := np_full (degree + 1) (0 : K)%num in
  let* rgt := np_full (degree + 1) (0 : K)%num in
  let* st := for_range 1 (degree + 1) (bf_round knot_span knot kv) (N, lft, rgt) in
  Ok (fst (fst st)).

(** basis.py:109-114, inner loop body of the triangle; state (ndu, saved). *)
Definition bd_inner (lft rgt : list K) (j : Z) (r : Z) (st : list (list K) * K)
  : res (list (list K) * K) :=
  let* rr := aget rgt (r + 1) in
  let* lj := aget lft (j - r) in
  let* ndu := aset2 (fst st) j r (rr + lj)%num in
  let* a := aget2 ndu r (j - 1) in
  let* b := aget2 ndu j r in
  let temp := (a / b)%num in
  let* ndu := aset2 ndu r j (snd st + rr * temp)%num in
  Ok (ndu, (lj * temp)%num).

(** basis.py:104-116, triangle round; state (ndu, lft, rgt). *)
Definition bd_round (knot_span : Z) (knot : K) (kv : list K) (j : Z)
  (st : list (list K) * list K * list K) : res (list (list K) * list K * list K) :=
  let '(ndu, lft, rgt) := st in
  let* ul := aget kv (knot_span + 1 - j) in
  let* lft := aset lft j (knot - ul)%num in
  let* ur := aget kv (knot_span + j) in
  let* rgt := aset rgt j (ur - knot)%num in
  let* ns := for_range 0 j (bd_inner lft rgt j) (ndu, 0%num) in
  let* ndu := aset2 (fst ns) j j (snd ns) in
  Ok (ndu, lft, rgt).

(** basis.py:146-148, the [j] loop of one derivative order; state (a, d). *)
Definition bd_jstep (ndu : list (list K)) (pk rk s1 s2 : Z) (j : Z)
  (st : list (list K) * K) : res (list (list K) * K) :=
  let* x := aget2 (fst st) s1 j in
  let* y := aget2 (fst st) s1 (j - 1) in
  let* q := aget2 ndu (pk + 1) (rk + j) in
  let* a := aset2 (fst st) s2 j ((x - y) / q)%num in
  let* v := aget2 a s2 j in
  let* w := aget2 ndu (rk + j) pk in
  Ok (a, (snd st + v * w)%num).

(** basis.py:129-158, one derivative order [k] for basis function [r];
    state (ders, a, s1, s2). *)
Definition bd_korder (degree : Z) (ndu : list (list K)) (r k : Z)
  (st : list (list K) * list (list K) * Z * Z)
  : res (list (list K) * list (list K) * Z * Z) :=
  let '(ders, a, s1, s2) := st in
  let rk := r - k in
  let pk := degree - k in
  let* ad :=
    (if k <=? r then
       let* x := aget2 a s1 0 in
       let* q := aget2 ndu (pk + 1) rk in
       let* a := aset2 a s2 0 (x / q)%num in
       let* v := aget2 a s2 0 in
       let* w := aget2 ndu rk pk in
       Ok (a, (v * w)%num)
     else Ok (a, 0%num)) in
  let j1 := if -1 <=? rk then 1 else - rk in
  let j2 := if r - 1 <=? pk then k - 1 else degree - r in
  let* ad := for_range j1 (j2 + 1) (bd_jstep ndu pk rk s1 s2) ad in
  let* ad :=
    (if r <=? pk then
       let* x := aget2 (fst ad) s1 (k - 1) in
       let* q := aget2 ndu (pk + 1) r in
       let* a := aset2 (fst ad) s2 k (nopp x / q)%num in
       let* v := aget2 a s2 k in
       let* w := aget2 ndu r pk in
       Ok (a, (snd ad + v * w)%num)
     else Ok ad) in
  let* ders := aset2 ders r k (snd ad) in
  Ok (ders, fst ad, s2, s1).

(** basis.py:123-158, all orders for basis function [r]; state (ders, a). *)
Definition bd_function (degree deriv_order : Z) (ndu : list (list K)) (r : Z)
  (st : list (list K) * list (list K)) : res (list (list K) * list (list K)) :=
  let* a := aset2 (snd st) 0 0 1%num in
  let* st := for_range 1 (deriv_order + 1) (bd_korder degree ndu r) (fst st, a, 0, 1) in
  let '(ders, a, _, _) := st in Ok (ders, a).

(** basis.py:161-165, correction factors; state (ders, r). *)
Definition bd_correct (degree : Z) (k : Z) (st : list (list K) * Z) : res (list (list K) * Z) :=
  let* ders := for_range 0 (degree + 1) (fun j d =>
      let* x := aget2 d j k in aset2 d j k (x * ofZ (snd st))%num) (fst st) in
  Ok (ders, snd st * (degree - k)).

(** basis.py:57-167 [basis_function_ders]. *)
Definition basis_function_ders (knot_span : Z) (knot : K) (degree : Z) (kv : list K)
  (deriv_order : Z) : res (list (list K)) :=
  let* ders := np_full2 (degree + 1) (deriv_order + 1) (0 : K)%num in
  let* ndu := np_full2 (degree + 1) (degree + 1) (1 : K)%num in
  let* ndu := aset2 ndu 0 0 1%num in
  let* lft := np_full (degree + 1) (1 : K)%num in
  let* rgt := np_full (degree + 1) (1 : K)%num in
  let* a := np_full2 2 (degree + 1) (1 : K)%num in
  let* tri := for_range 1 (degree + 1) (bd_round knot_span knot kv) (ndu, lft, rgt) in
  let ndu := fst (fst tri) in
  let* ders := for_range 0 (degree + 1) (fun j d =>
      let* x := aget2 ndu j degree in aset2 d j 0 x) ders in
  let* da := for_range 0 (degree + 1) (bd_function degree deriv_order ndu) (ders, a) in
  let* dr := for_range 1 (deriv_order + 1) (bd_correct degree) (fst da, degree) in
  Ok (fst dr).

(** basis.py:205-207 / 268-270: degree-0 test
    [kv[i] <= knot < kv[i+1]] (the second comparison only if the first holds). *)
Definition in_half_open (kv : list K) (knot : K) (i : Z) : res bool :=
  let* a := aget kv i in
  if (a <=? knot)%num then let* b := aget kv (i + 1) in Ok (knot <? b)%num else Ok false.

(** basis.py:215-225, inner loop of [one_basis_function]; state (N, saved). *)
Definition ob_inner (kv : list K) (knot_span : Z) (knot : K) (k j : Z) (st : list K * K)
  : res (list K * K) :=
  let* Uleft := aget kv (knot_span + j + 1) in
  let* Uright := aget kv (knot_span + j + k + 1) in
  let* nj1 := aget (fst st) (j + 1) in
  if (nj1 =? 0)%num then
    let* N := aset (fst st) j (snd st) in Ok (N, 0%num)
  else
    let temp := (nj1 / (Uright - Uleft))%num in
    let* N := aset (fst st) j (snd st + (Uright - knot) * temp)%num in
    Ok (N, ((knot - Uleft) * temp)%num).

(** basis.py:210-225, one degree [k]. *)
Definition ob_round (degree : Z) (kv : list K) (knot_span : Z) (knot : K) (k : Z) (N : list K)
  : res (list K) :=
  let* n0 := aget N 0 in
  let* saved :=
    (if negb (n0 =? 0)%num then
       let* ui := aget kv knot_span in
       let* uk := aget kv (knot_span + k) in
       Ok (((knot - ui) * n0) / (uk - ui))%num
     else Ok 0%num) in
  let* ns := for_range 0 (degree - k + 1) (ob_inner kv knot_span knot k) (N, saved) in
  Ok (fst ns).

(** basis.py:194-196, the special cases. *)
Definition ob_special (degree : Z) (kv : list K) (knot_span : Z) (knot : K) : res bool :=
  let* c1 := (if knot_span =? 0 then let* u0 := aget kv 0 in Ok (knot =? u0)%num else Ok false) in
  if c1 then Ok true else
  if knot_span =? zlen kv - degree - 2
  then let* um := aget kv (zlen kv - 1) in Ok (knot =? um)%num else Ok false.

(** basis.py:199, [knot < kv[i] or knot > kv[i+p+1]]. *)
Definition ob_outside (degree : Z) (kv : list K) (knot_span : Z) (knot : K) : res bool :=
  let* a := aget kv knot_span in
  if (knot <? a)%num then Ok true
  else let* b := aget kv (knot_span + degree + 1) in Ok (b <? knot)%num.

(** basis.py:170-227 [one_basis_function]. *)
Definition one_basis_function (degree : Z) (kv : list K) (knot_span : Z) (knot : K) : res K :=
  let* special := ob_special degree kv knot_span knot in
  if special then Ok 1%num else
  let* outside := ob_outside degree kv knot_span knot in
  if outside then Ok 0%num else
  let* N := np_full (knot_span + degree + 1) (0 : K)%num in
  let* N := for_range 0 (degree + 1) (fun j N =>
      let* b := in_half_open kv knot (knot_span + j) in
      if b then aset N j 1%num else Ok N) N in
  let* N := for_range 1 (degree + 1) (ob_round degree kv knot_span knot) N in
  aget N 0.

(** basis.py:279-289, inner loop of the value table; state (N, saved), the
    table is N[j, k]. *)
Definition obd_inner (kv : list K) (knot_span : Z) (knot : K) (k j : Z)
  (st : list (list K) * K) : res (list (list K) * K) :=
  let* Uleft := aget kv (knot_span + j + 1) in
  let* Uright := aget kv (knot_span + j + k + 1) in
  let* nj1 := aget2 (fst st) (j + 1) (k - 1) in
  if (nj1 =? 0)%num then
    let* N := aset2 (fst st) j k (snd st) in Ok (N, 0%num)
  else
    let temp := (nj1 / (Uright - Uleft))%num in
    let* N := aset2 (fst st) j k (snd st + (Uright - knot) * temp)%num in
    Ok (N, ((knot - Uleft) * temp)%num).

(** basis.py:273-289, one degree [k] of the table. *)
Definition obd_round (degree : Z) (kv : list K) (knot_span : Z) (knot : K) (k : Z)
  (N : list (list K)) : res (list (list K)) :=
  let* n0 := aget2 N 0 (k - 1) in
  let* saved :=
    (if negb (n0 =? 0)%num then
       let* ui := aget kv knot_span in
       let* uk := aget kv (knot_span + k) in
       Ok (((knot - ui) * n0) / (uk - ui))%num
     else Ok 0%num) in
  let* ns := for_range 0 (degree - k + 1) (obd_inner kv knot_span knot k) (N, saved) in
  Ok (fst ns).

(** basis.py:307-316, inner derivative loop; state (ND, saved). *)
Definition obd_dinner (degree : Z) (kv : list K) (knot_span : Z) (k jj j : Z)
  (st : list K * K) : res (list K * K) :=
  let* Uleft := aget kv (knot_span + j + 1) in
  let* Uright := aget kv (knot_span + j + degree - k + jj + 1) in
  let* nj1 := aget (fst st) (j + 1) in
  if (nj1 =? 0)%num then
    let* ND := aset (fst st) j (ofZ (degree - k + jj) * snd st)%num in Ok (ND, 0%num)
  else
    let temp := (nj1 / (Uright - Uleft))%num in
    let* ND := aset (fst st) j (ofZ (degree - k + jj) * (snd st - temp))%num in
    Ok (ND, temp).

(** basis.py:302-316, one differentiation level [jj]. *)
Definition obd_level (degree : Z) (kv : list K) (knot_span : Z) (k jj : Z) (ND : list K)
  : res (list K) :=
  let* n0 := aget ND 0 in
  let* saved :=
    (if negb (n0 =? 0)%num then
       let* u1 := aget kv (knot_span + degree - k + jj) in
       let* u0 := aget kv knot_span in
       Ok (n0 / (u1 - u0))%num
     else Ok 0%num) in
  let* ns := for_range 0 (k - jj + 1) (obd_dinner degree kv knot_span k jj) (ND, saved) in
  Ok (fst ns).

(** basis.py:295-318, derivative order [k]; state (ND, ders). *)
Definition obd_order (degree : Z) (kv : list K) (knot_span : Z) (N : list (list K)) (k : Z)
  (st : list K * list K) : res (list K * list K) :=
  let* ND := for_range 0 (k + 1) (fun j ND =>
      let* x := aget2 N j (degree - k) in aset ND j x) (fst st) in
  let* ND := for_range 1 (k + 1) (obd_level degree kv knot_span k) ND in
  let* d := aget ND 0 in
  let* ders := aset (snd st) k d in
  Ok (ND, ders).

(** basis.py:230-320 [one_basis_function_ders]. *)
Definition one_basis_function_ders (degree : Z) (kv : list K) (knot_span : Z) (knot : K)
  (deriv_order : Z) : res (list K) :=
  let* ders := np_full (deriv_order + 1) (0 : K)%num in
  let* a := aget kv knot_span in
  let* outside := (if (knot <? a)%num then Ok true
                   else let* b := aget kv (knot_span + degree + 1) in Ok (b <=? knot)%num) in
  if outside then Ok ders else
  let* N := np_full2 (degree + 1) (degree + 1) (0 : K)%num in
  let* N := for_range 0 (degree + 1) (fun j N =>
      let* b := in_half_open kv knot (knot_span + j) in
      if b then aset2 N j 0 1%num else Ok N) N in
  let* N := for_range 1 (degree + 1) (obd_round degree kv knot_span knot) N in
  let* v := aget2 N 0 degree in
  let* ders := aset ders 0 v in
  let* ND := np_full (deriv_order + 1) (0 : K)%num in
  let* st := for_range 1 (deriv_order + 1) (obd_order degree kv knot_span N) (ND, ders) in
  Ok (snd st).

End Basis.
