(** Lemmas about the VTK sampling grid. *)
From Coq Require Import Reals Lra Floats.
From Verif Require Import Py PyLemmas Num ProofNum ModelKnots ModelCurve ModelSurface ModelIO ProofCurve2 ProofFit.
Open Scope Z_scope.

(** ** Loops *)
Lemma for_list_prod {X Y S} (us : list X) (vs : list Y) (f : X -> Y -> S -> res S) s :
  for_list us (fun u => for_list vs (f u)) s = for_list (list_prod us vs) (fun uv => f (fst uv) (snd uv)) s.
Proof.
  revert s; induction us as [|u us IH]; intros s; [reflexivity|]; cbn [for_list list_prod].
  rewrite for_list_app.
  assert (E : forall s, for_list (map (fun y => (u, y)) vs) (fun uv => f (fst uv) (snd uv)) s = for_list vs (f u) s).
  { clear; induction vs as [|v vs IH]; intros s; [reflexivity|]; cbn [map for_list fst snd]; destruct (f u v s); cbn [bind]; [apply IH|reflexivity|reflexivity]. }
  rewrite E; destruct (for_list vs (f u) s); cbn [bind]; [apply IH|reflexivity|reflexivity].
Qed.
Lemma for_list_in {X S} (l : list X) (body : X -> S -> res S) s s' x : for_list l body s = Ok s' -> In x l ->
  exists s1 s2, body x s1 = Ok s2.
Proof.
  revert s; induction l as [|y l IH]; intros s H I; [destruct I|]; cbn [for_list] in H; bind_inv H.
  destruct I as [->|I]; [exists s, a; assumption|exact (IH _ H I)].
Qed.

Section Fill.
Context {K : Num}.
(** Writing rows one after the other. *)
Definition fill {X} (row : X -> res (list K)) (uv : X) (st : list (list K) * Z) : res (list (list K) * Z) :=
  let* q := row uv in let* s := aset_row (fst st) (snd st) q in Ok (s, snd st + 1).
Lemma aset_mid {A} (l1 l2 : list A) x y i : i = zlen l1 -> aset (l1 ++ x :: l2) i y = Ok (l1 ++ y :: l2).
Proof.
  intros ->; unfold aset; rewrite zlen_app, zlen_cons; destruct (Z.ltb_spec (zlen l1) 0); [unfold zlen in *; lia|].
  destruct (Z.leb_spec 0 (zlen l1)), (Z.ltb_spec (zlen l1) (zlen l1 + (zlen l2 + 1))); try (unfold zlen in *; lia); cbn [andb].
  f_equal; replace (Z.to_nat (zlen l1)) with (length l1) by (unfold zlen; lia).
  induction l1 as [|z l1 IH]; [reflexivity|]; cbn [app length upd]; f_equal.
  apply IH; unfold zlen in *; lia.
Qed.
Lemma fill_all {X} (row : X -> res (list K)) l done w (z : list K) : zlen z = w ->
  for_list l (fill row) (done ++ repeat z (length l), zlen done)
  = let* rows := mapM (fun uv => let* q := row uv in broadcast w q) l in Ok (done ++ rows, zlen done + zlen l).
Proof.
  intros Hz; revert done; induction l as [|uv l IH]; intros done.
  - cbn [for_list mapM bind length repeat]; unfold zlen at 3; cbn [length]; rewrite Z.add_0_r; reflexivity.
  - cbn [for_list mapM length repeat]; unfold fill at 1; destruct (row uv) as [q|e|]; cbn [bind fst snd]; [|reflexivity|reflexivity].
    unfold aset_row; rewrite aget_mid by reflexivity; cbn [bind]; rewrite Hz.
    destruct (broadcast w q) as [q'|e|]; cbn [bind]; [|reflexivity|reflexivity].
    rewrite aset_mid by reflexivity; cbn [bind].
    specialize (IH (done ++ [q'])); rewrite <- app_assoc in IH; cbn [app] in IH.
    rewrite zlen_app in IH; replace (zlen done + zlen [q']) with (zlen done + 1) in IH by (unfold zlen; cbn; lia).
    rewrite IH; destruct (mapM _ l); cbn [bind]; [|reflexivity|reflexivity].
    rewrite <- app_assoc, zlen_cons; do 2 f_equal; lia.
Qed.
(** The buffer must have room. *)
Lemma fill_room {X} (row : X -> res (list K)) l spts i st : 0 <= i -> for_list l (fill row) (spts, i) = Ok st -> l = [] \/ i + zlen l <= zlen spts.
Proof.
  revert spts i; induction l as [|uv l IH]; intros spts i Hi H; [left; reflexivity|right].
  cbn [for_list] in H; bind_inv H; rename a into st1, E into E1; unfold fill in E1; bind_inv E1; cbn [fst snd] in E1; bind_inv E1.
  injection E1 as <-; unfold aset_row in E0; bind_inv E0; bind_inv E0.
  assert (L : i < zlen spts /\ zlen a0 = zlen spts).
  { split; [|exact (aset_len _ _ _ _ E0)].
    destruct (Z.lt_ge_cases i (zlen spts)); [assumption|]; rewrite aget_out in E1 by lia; discriminate. }
  destruct (IH a0 (i + 1) ltac:(lia) H) as [->|G]; rewrite ?zlen_cons; [unfold zlen at 1; cbn [length]; lia|lia].
Qed.

Lemma vtk_loop_fill point (stop step : K) spts us : np_arange (0 : K)%num stop step = Ok us ->
  vtk_loop point stop step spts =
  for_list (list_prod us us) (fill (fun uv => let* q := point (fst uv) (snd uv) in Ok (q ++ [fst uv; snd uv]))) (spts, 0).
Proof.
  intros E; unfold vtk_loop; rewrite E; cbn [bind]; rewrite for_list_prod.
  assert (G : forall l s, for_list l (fun uv st => let* q := point (fst uv) (snd uv) in let* s := aset_row (fst st) (snd st) (q ++ [fst uv; snd uv]) in Ok (s, snd st + 1)) s
    = for_list l (fill (fun uv => let* q := point (fst uv) (snd uv) in Ok (q ++ [fst uv; snd uv]))) s).
  { induction l as [|uv l IH]; intros s; [reflexivity|]; cbn [for_list]; unfold fill at 1.
    destruct (point (fst uv) (snd uv)); cbn [bind]; [|reflexivity|reflexivity]; destruct (aset_row (fst s) (snd s) _); cbn [bind]; [|reflexivity|reflexivity]; apply IH. }
  apply G.
Qed.
End Fill.

(** ** Exact numbers *)
Lemma Rfloor_IZR z : Rfloor (IZR z) = z.
Proof.
  unfold Rfloor; rewrite <- (tech_up (IZR z) (z + 1)); [lia| |]; rewrite plus_IZR; lra.
Qed.
Lemma xceil_IZR z : nceil (Fin (IZR z) : Exact) = Some z.
Proof. cbn; rewrite <- opp_IZR, Rfloor_IZR; f_equal; lia. Qed.
Lemma xtrunc_IZR z : ntrunc (Fin (IZR z) : Exact) = Some z.
Proof. cbn; destruct (Rlt_dec (IZR z) 0); rewrite <- ?opp_IZR, Rfloor_IZR; f_equal; lia. Qed.

Definition frac (n i : Z) : Exact := Fin (IZR i / IZR n).
Lemma E_inv n : n <> 0 -> ((1 : Exact) / ofZ n)%num = Fin (1 / IZR n).
Proof. intros N; cbn; destruct (Req_EM_T (IZR n) 0) as [H|]; [apply eq_IZR in H; contradiction|reflexivity]. Qed.
Lemma arange_exact n : 1 <= n ->
  np_arange (0 : Exact)%num (1 + 1 / ofZ n)%num (1 / ofZ n)%num = Ok (map (frac n) (zrange 0 (n + 1))).
Proof.
  intros Hn; assert (P : (0 < IZR n)%R) by (apply IZR_lt; lia).
  unfold np_arange; rewrite E_inv by lia.
  assert (E : ((((1 : Exact) + (Fin (1 / IZR n) : Exact)) - (0 : Exact)) / (Fin (1 / IZR n) : Exact))%num = (Fin (IZR (n + 1)) : Exact)).
  { cbn; destruct (Req_EM_T (1 / IZR n) 0) as [H|H].
    - exfalso; apply (Rmult_eq_compat_r (IZR n)) in H; unfold Rdiv in H; rewrite Rmult_1_l, Rinv_l in H; lra.
    - f_equal; rewrite plus_IZR; field; lra. }
  rewrite E, xceil_IZR; f_equal; apply map_ext; intros i; unfold frac.
  destruct (Z.eqb_spec i 0) as [->|]; [cbn; f_equal; lra|].
  destruct (Z.eqb_spec i 1) as [->|]; [cbn; f_equal; lra|].
  cbn; f_equal; field; lra.
Qed.
Lemma list_prod_map {X Y} (f : X -> Y) l m : list_prod (map f l) (map f m) = map (fun p => (f (fst p), f (snd p))) (list_prod l m).
Proof.
  induction l as [|x l IH]; [reflexivity|]; cbn [map list_prod]; rewrite IH, map_app, !map_map; reflexivity.
Qed.
Lemma mapM_compose {X Y T} (f : Y -> res T) (h : X -> Y) l : mapM f (map h l) = mapM (fun x => f (h x)) l.
Proof. induction l as [|x l IH]; [reflexivity|]; cbn [map mapM]; rewrite IH; reflexivity. Qed.
Lemma mapM_ext' {X Y} (f g : X -> res Y) l : (forall x, f x = g x) -> mapM f l = mapM g l.
Proof. intros H; induction l as [|x l IH]; [reflexivity|]; cbn [mapM]; rewrite H, IH; reflexivity. Qed.

Lemma vtk_grid_exact (point : Exact -> Exact -> res (list Exact)) n : 1 <= n ->
  vtk_grid point n =
  mapM (fun ij => let u := (Fin (IZR (fst ij) / IZR n) : Exact) in let v := (Fin (IZR (snd ij) / IZR n) : Exact) in
                  let* q := point u v in broadcast 5 (q ++ [u; v]))
       (list_prod (zrange 0 (n + 1)) (zrange 0 (n + 1))).
Proof.
  intros Hn; assert (P : (0 < IZR n)%R) by (apply IZR_lt; lia).
  unfold vtk_grid; destruct (Z.eqb_spec n 0); [lia|].
  assert (E : (((1 + 1 / ofZ n) - (0 : Exact)) * ofZ n)%num = (Fin (IZR (n + 1)) : Exact)).
  { rewrite E_inv by lia; cbn; f_equal; rewrite plus_IZR; field; lra. }
  rewrite E, xtrunc_IZR; unfold np_full2; destruct (Z.ltb_spec ((n + 1) * (n + 1)) 0); [nia|]; cbn [orb bind].
  change (5 <? 0) with false; cbv iota; cbn [bind].
  rewrite (vtk_loop_fill _ _ _ _ _ (arange_exact n Hn)), list_prod_map.
  set (l := list_prod (zrange 0 (n + 1)) (zrange 0 (n + 1))).
  assert (L : length (map (fun p => (frac n (fst p), frac n (snd p))) l) = Z.to_nat ((n + 1) * (n + 1))).
  { unfold l; rewrite map_length, prod_length, zrange_length; nia. }
  rewrite <- L.
  pose proof (fill_all (K := Exact) (fun uv => let* q := point (fst uv) (snd uv) in Ok (q ++ [fst uv; snd uv])) (map (fun p => (frac n (fst p), frac n (snd p))) l) [] 5
     (repeat (0 : Exact)%num (Z.to_nat 5)) eq_refl) as F; cbn [app] in F; change (zlen []) with 0 in F; rewrite F; clear F.
  rewrite mapM_compose.
  rewrite (mapM_ext' _ (fun ij => let u := (Fin (IZR (fst ij) / IZR n) : Exact) in let v := (Fin (IZR (snd ij) / IZR n) : Exact) in
                  let* q := point u v in broadcast 5 (q ++ [u; v]))).
  - destruct (mapM _ l); reflexivity.
  - intros ij; cbn [fst snd]; unfold frac; destruct (point _ _); reflexivity.
Qed.

(** ** Doubles *)
Lemma vtk_grid_ok {K : Num} (point : K -> K -> res (list K)) n g : vtk_grid point n = Ok g ->
  exists size us, ntrunc (((1 + 1 / ofZ n) - (0 : K)) * ofZ n)%num = Some size /\
    np_arange (0 : K)%num (1 + 1 / ofZ n)%num (1 / ofZ n)%num = Ok us /\
    (us = [] \/ zlen us * zlen us <= size * size) /\
    forall u v, In u us -> In v us -> exists q, point u v = Ok q.
Proof.
  unfold vtk_grid; destruct (n =? 0); [discriminate|].
  destruct (ntrunc _) as [size|]; [|discriminate]; intros H; bind_inv H; bind_inv H; injection H as <-.
  assert (EA : exists us, np_arange (0 : K)%num (1 + 1 / ofZ n)%num (1 / ofZ n)%num = Ok us).
  { unfold vtk_loop in E0; bind_inv E0; eexists; reflexivity. }
  destruct EA as [us EA]; exists size, us; split; [reflexivity|]; split; [exact EA|].
  rewrite (vtk_loop_fill _ _ _ _ _ EA) in E0; split.
  - destruct (fill_room _ _ _ _ _ (Z.le_refl 0) E0) as [H|H].
    + left; destruct us as [|u us]; [reflexivity|discriminate H].
    + right; unfold np_full2 in E; destruct ((size * size <? 0) || (5 <? 0))%bool eqn:B; [discriminate|]; injection E as <-.
      unfold zlen in *; rewrite prod_length, repeat_length in H; apply orb_false_iff in B; destruct B as [B _]; apply Z.ltb_ge in B; nia.
  - intros u v Iu Iv; assert (I : In (u, v) (list_prod us us)) by (apply in_prod; assumption).
    destruct (for_list_in _ _ _ _ _ E0 I) as (s1 & s2 & B); unfold fill in B; cbn [fst snd] in B; bind_inv B; bind_inv E1; eexists; reflexivity.
Qed.
Lemma vtk_47 (point : Binary64 -> Binary64 -> res (list Binary64)) g : vtk_grid point 47 <> Ok g.
Proof.
  intros H; apply vtk_grid_ok in H; destruct H as (size & us & H1 & H2 & H3 & _).
  assert (S : size = 47).
  { assert (E : ntrunc (((1 + 1 / ofZ 47) - (0 : Binary64)) * ofZ 47)%num = Some 47) by (vm_compute; reflexivity); congruence. }
  assert (L : match np_arange (0 : Binary64)%num (1 + 1 / ofZ 47)%num (1 / ofZ 47)%num with Ok l => zlen l | _ => 0 end = 48) by (vm_compute; reflexivity).
  rewrite H2 in L; subst size; rewrite L in H3; destruct H3 as [->|H3]; [discriminate L|lia].
Qed.
Lemma vtk_6 (point : Binary64 -> Binary64 -> res (list Binary64)) g :
  (forall u v, (1 <? v)%num = true -> forall q, point u v <> Ok q) -> vtk_grid point 6 <> Ok g.
Proof.
  intros HV H; apply vtk_grid_ok in H; destruct H as (size & us & H1 & H2 & H3 & H4).
  assert (L : match np_arange (0 : Binary64)%num (1 + 1 / ofZ 6)%num (1 / ofZ 6)%num with
              | Ok l => existsb (fun v => ((1 : Binary64) <? v)%num) l | _ => false end = true) by (vm_compute; reflexivity).
  rewrite H2 in L; apply existsb_exists in L; destruct L as (v & Iv & Lv).
  destruct (H4 v v Iv Iv) as [q Hq]; exact (HV v v Lv q Hq).
Qed.
