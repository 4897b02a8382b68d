(** Lemmas about [single_fit_curve] (model: ModelFit.v). *)
From Verif Require Import Py PyLemmas Num ModelKnots ModelBasis ModelCurve ModelInit ModelParam ModelFit Spec SpecFit MathCox MathKnots ProofNum ProofOneBasis ProofCurve2 ProofParam ProofFit ProofFit2 ProofFit3.
Open Scope R_scope.

(** ** Masks by index *)
Lemma kept_ext {A} mask (a b : list A) d : length mask = length a -> length a = length b ->
  (forall i, nth i mask false = true -> nth i a d = nth i b d) -> kept mask a = kept mask b.
Proof.
  unfold kept; revert a b; induction mask as [|m mask IH]; intros [|x a] [|y b] H1 H2 H; try discriminate; [reflexivity|].
  cbn in H1, H2; cbn [pick]; rewrite (IH a b) by (try congruence; intros i Hi; exact (H (S i) Hi)).
  destruct m; cbn; [|reflexivity]; f_equal; exact (H 0%nat eq_refl).
Qed.
Lemma kept_nth {A} mask (a b : list A) d : length mask = length a -> length a = length b ->
  kept mask a = kept mask b -> forall i, nth i mask false = true -> nth i a d = nth i b d.
Proof.
  unfold kept; revert a b; induction mask as [|m mask IH]; intros [|x a] [|y b] H1 H2 H i Hi; try discriminate; [reflexivity|].
  cbn in H1, H2, H; destruct m; cbn in H.
  - injection H as -> H; destruct i; [reflexivity|]; apply (IH a b); auto; congruence.
  - destruct i; [discriminate|]; apply (IH a b); auto; congruence.
Qed.

(** ** Points from coordinates *)
Definition stack (x y z : list R) : list (list R) :=
  map (fun t => [fst (fst t); snd (fst t); snd t]) (combine (combine x y) z).
Lemma column_stack3_fin x y z : length x = length y -> length y = length z ->
  column_stack3 (fin x : list Exact) (fin y) (fin z) = fin2 (stack x y z).
Proof.
  unfold column_stack3, stack; revert y z; induction x as [|a x IH]; intros [|b y] [|c z] H1 H2; try discriminate; [reflexivity|].
  cbn; f_equal; apply IH; cbn in *; congruence.
Qed.
Lemma stack_length x y z : length x = length y -> length y = length z -> length (stack x y z) = length x.
Proof. intros; unfold stack; rewrite map_length, !combine_length; lia. Qed.
Lemma stack_coords x y z : length x = length y -> length y = length z ->
  coords 0 (stack x y z) = x /\ coords 1 (stack x y z) = y /\ coords 2 (stack x y z) = z.
Proof.
  unfold stack, coords; revert y z; induction x as [|a x IH]; intros [|b y] [|c z] H1 H2; try discriminate; [repeat split|].
  destruct (IH y z) as (Ex & Ey & Ez); [cbn in *; congruence|cbn in *; congruence|].
  cbn; repeat split; f_equal; assumption.
Qed.
Lemma stack_rows x y z : Forall (fun r => length r = 3%nat) (stack x y z).
Proof. unfold stack; rewrite Forall_map; apply Forall_forall; reflexivity. Qed.
Lemma coords_length c P : length (coords c P) = length P.
Proof. apply map_length. Qed.
Lemma acol_fin2 rows w c : Forall (fun r => length r = w) rows -> (c < w)%nat ->
  acol (fin2 rows : list (list Exact)) (Z.of_nat c) = Ok (fin (coords c rows)).
Proof.
  intros HR Hc; rewrite (acol_map _ w (Z.of_nat c) (Fin 0 : Exact)); [|unfold fin2; rewrite Forall_map; revert HR; apply Forall_impl; intros r Hr; unfold fin; rewrite map_length; exact Hr|lia].
  rewrite Nat2Z.id; unfold fin2, fin, coords; rewrite !map_map; f_equal; apply map_ext; intros r; apply (map_nth (Fin : R -> Exact)).
Qed.
Lemma nth_coords c P i : nth i (coords c P) 0 = nth c (nth i P []) 0.
Proof. unfold coords; rewrite <- (map_nth (fun r => nth c r 0)); f_equal; destruct c; reflexivity. Qed.
Lemma row3_ext (a b : list R) : length a = 3%nat -> length b = 3%nat ->
  (forall c, (c < 3)%nat -> nth c a 0 = nth c b 0) -> a = b.
Proof. intros Ha Hb H; apply nth_ext with (d := 0) (d' := 0); [congruence|]; intros i Hi; apply H; lia. Qed.

Definition sq_err3 N (rows P : list (list R)) : R :=
  sq_err N (coords 0 rows) (coords 0 P) + sq_err N (coords 1 rows) (coords 1 P) + sq_err N (coords 2 rows) (coords 2 P).

Lemma fit_coordinates_exact sv N rows P mask n w : least_squares sv ->
  Forall (fun r => length r = n) N -> length N = length rows -> length P = n -> length mask = n ->
  Forall (fun r => length r = w) rows -> (3 <= w)%nat -> Forall (fun r => length r = 3%nat) P ->
  exists P', fit_coordinates sv (fin2 N) (fin2 rows) (fin2 P) mask = Ok (fin2 P') /\ length P' = n /\
    Forall (fun r => length r = 3%nat) P' /\
    (forall i, nth i mask false = true -> nth i P' [] = nth i P []) /\
    forall Z, length Z = n -> (forall i, nth i mask false = true -> nth i Z [] = nth i P []) ->
      sq_err3 N rows P' <= sq_err3 N rows Z.
Proof.
  intros HS HN HL HP HM HR Hw H3.
  assert (LF : forall c, exists x, linear_fit_fixed sv (fin2 N) (fin (coords c rows)) (fin (coords c P)) mask 1 = Ok (fin x) /\ length x = n /\
    kept mask x = kept mask (coords c P) /\
    forall z, length z = n -> kept mask z = kept mask (coords c P) -> sq_err N (coords c rows) x <= sq_err N (coords c rows) z).
  { intros c; destruct (linear_fit_fixed_exact sv N (coords c rows) (coords c P) mask 1 n HS HN) as (x & E & Lx & K & O);
      rewrite ?coords_length; auto; [lia|].
    rewrite (firstn_full mask n HM) in K, O; exists x; auto. }
  destruct (LF 0%nat) as (x & Ex & Lx & Kx & Ox); destruct (LF 1%nat) as (y & Ey & Ly & Ky & Oy);
    destruct (LF 2%nat) as (z & Ez & Lz & Kz & Oz).
  exists (stack x y z).
  destruct (stack_coords x y z ltac:(congruence) ltac:(congruence)) as (Cx & Cy & Cz).
  split.
  { unfold fit_coordinates; change 0%Z with (Z.of_nat 0) at 1 2.
    rewrite (acol_fin2 rows w 0 HR), (acol_fin2 P 3 0 H3) by lia; cbn [bind]; rewrite Ex; cbn [bind].
    change 1%Z with (Z.of_nat 1) at 1 2.
    rewrite (acol_fin2 rows w 1 HR), (acol_fin2 P 3 1 H3) by lia; cbn [bind]; change (Z.of_nat 1) with 1%Z; rewrite Ey; cbn [bind].
    change 2%Z with (Z.of_nat 2) at 1 2.
    rewrite (acol_fin2 rows w 2 HR), (acol_fin2 P 3 2 H3) by lia; cbn [bind]; rewrite Ez; cbn [bind].
    rewrite column_stack3_fin by congruence; reflexivity. }
  split; [rewrite stack_length; congruence|]; split; [apply stack_rows|]; split.
  - intros i Hi.
    assert (Hin : (i < n)%nat).
    { destruct (Nat.lt_ge_cases i n); [assumption|]; rewrite nth_overflow in Hi by lia; discriminate. }
    assert (LS : length (stack x y z) = n) by (rewrite stack_length; congruence).
    apply row3_ext.
    + pose proof (stack_rows x y z) as F; rewrite Forall_forall in F; apply F, nth_In; lia.
    + rewrite Forall_forall in H3; apply H3, nth_In; lia.
    + intros c Hc; rewrite <- !nth_coords.
      apply (kept_nth mask); rewrite ?coords_length; [congruence|congruence| |exact Hi].
      destruct c as [|[|[|c]]]; [rewrite Cx; exact Kx|rewrite Cy; exact Ky|rewrite Cz; exact Kz|lia].
  - intros Z LZ HZ; unfold sq_err3; rewrite Cx, Cy, Cz.
    assert (KZ : forall c, kept mask (coords c Z) = kept mask (coords c P)).
    { intros c; apply (kept_ext mask _ _ 0); rewrite ?coords_length; try congruence.
      intros i Hi; rewrite !nth_coords, HZ by exact Hi; reflexivity. }
    pose proof (Ox (coords 0 Z) ltac:(rewrite coords_length; exact LZ) (KZ 0%nat)).
    pose proof (Oy (coords 1 Z) ltac:(rewrite coords_length; exact LZ) (KZ 1%nat)).
    pose proof (Oz (coords 2 Z) ltac:(rewrite coords_length; exact LZ) (KZ 2%nat)).
    lra.
Qed.

(** ** The matrix of basis values *)
Section Matrix.
Context {K : Num}.
Lemma curve_matrix_tab p (P : list (list K)) kv us m n (B : Z -> Z -> K) : zlen us = Z.of_nat m -> zlen P = Z.of_nat n ->
  (forall i j e, (0 <= i < Z.of_nat m)%Z -> (0 <= j < Z.of_nat n)%Z -> aget us i = Ok e -> one_basis_function p kv j e = Ok (B i j)) ->
  curve_matrix p P kv us (Z.of_nat m) = Ok (tab2 m n B).
Proof.
  intros Hm Hn HB; unfold curve_matrix.
  rewrite (np_full2_tab m n) by auto; cbn [bind]; rewrite Hm, Hn.
  set (F := fun i => (tab2 m n (fun a b => if (a <? i)%Z then B a b else (0 : K)%num), i, 0%Z)).
  rewrite (for_range_fun F); [| lia | |].
  - cbn [bind fst F]; f_equal; apply tab2_ext; intros a b Ha Hb; destruct (Z.ltb_spec a (Z.of_nat m)); [reflexivity|lia].
  - unfold F; do 2 f_equal; apply tab2_ext; intros a b Ha Hb; destruct (Z.ltb_spec a 0); [lia|reflexivity].
  - intros i Hi.
    set (G := fun j => (tab2 m n (fun a b => if (a <? i)%Z || ((a =? i)%Z && (b <? j)%Z) then B a b else (0 : K)%num), i, j)).
    rewrite (for_range_fun G); [| lia | |].
    + cbn [bind G]; unfold F; do 3 f_equal; apply tab2_ext; intros a b Ha Hb.
      destruct (Z.ltb_spec a i); destruct (Z.ltb_spec a (i + 1)); destruct (Z.eqb_spec a i); destruct (Z.ltb_spec b (Z.of_nat n)); cbn; try lia; reflexivity.
    + unfold F, G; do 2 f_equal; apply tab2_ext; intros a b Ha Hb.
      destruct (Z.ltb_spec a i); destruct (Z.eqb_spec a i); destruct (Z.ltb_spec b 0); cbn; try lia; reflexivity.
    + intros j Hj; unfold G at 1.
      destruct (aget us i) as [e| |] eqn:Ee.
      2,3: destruct us as [|d us]; [unfold zlen in Hm; cbn in Hm; lia|rewrite (aget_nth _ _ d) in Ee by lia; discriminate].
      cbn [bind]; rewrite (HB i j e) by auto; cbn [bind].
      rewrite aset2_tab2 by lia; cbn [bind]; unfold G; do 3 f_equal; apply tab2_ext; intros a b Ha Hb; unfold fupd2.
      destruct (Z.eqb_spec a i), (Z.eqb_spec b j), (Z.ltb_spec a i), (Z.ltb_spec b (j + 1)), (Z.ltb_spec b j); cbn [andb orb]; try lia; subst; reflexivity.
Qed.
End Matrix.

Lemma fin_tabf n f : fin (tab n f) = (tab n (fun i => Fin (f i)) : list Exact).
Proof. apply map_tab. Qed.
Lemma fin2_tab2 m n f : fin2 (tab2 m n f) = (tab2 m n (fun i j => Fin (f i j)) : list (list Exact)).
Proof. unfold fin2, tab2; rewrite map_tab; apply tab_ext; intros; apply fin_tabf. Qed.
Lemma nsum_tab n f : nsum (tab n (fun i => Fin (f i)) : list Exact) = Fin (zsum 0 n f).
Proof.
  induction n as [|n IH]; [reflexivity|].
  transitivity (nadd (nsum (tab n (fun i => Fin (f i)) : list Exact)) (Fin (f (Z.of_nat n)) : Exact)).
  - unfold nsum; rewrite tab_S, fold_left_app; reflexivity.
  - rewrite IH, E_add; reflexivity.
Qed.
Lemma tab2_matrix {A} m n (f : Z -> Z -> A) : length (tab2 m n f) = m /\ Forall (fun r => length r = n) (tab2 m n f).
Proof. split; [apply tab_length|]; unfold tab2, tab at 1; rewrite Forall_map; apply Forall_forall; intros; apply tab_length. Qed.

Lemma unity_total m n f :
  nsum (map nsum (fin2 (tab2 m n f) : list (list Exact))) = Fin (zsum 0 m (fun i => zsum 0 n (f i))).
Proof.
  rewrite fin2_tab2; unfold tab2; rewrite map_tab.
  rewrite (tab_ext m _ (fun i => Fin (zsum 0 n (f i)) : Exact)) by (intros i Hi; apply nsum_tab).
  apply nsum_tab.
Qed.
Lemma check_unity_bad sv m n f : ~ close (1/100000) (1/100000000) (zsum 0 m (fun i => zsum 0 n (f i))) (IZR (Z.of_nat m)) ->
  check_unity sv (Z.of_nat n) (fin2 (tab2 m n f)) (Z.of_nat m) = Err ValueError.
Proof. intros H; unfold check_unity; rewrite unity_total, E_ofZ, (proj2 (E_isclose_false _ _)) by exact H; reflexivity. Qed.
Lemma check_unity_good sv m n f : close (1/100000) (1/100000000) (zsum 0 m (fun i => zsum 0 n (f i))) (IZR (Z.of_nat m)) ->
  exists G, check_unity sv (Z.of_nat n) (fin2 (tab2 m n f)) (Z.of_nat m) = bind (sv_cond sv (fin2 G)) (fun _ => Ok tt).
Proof.
  intros H; unfold check_unity; rewrite unity_total, E_ofZ, (proj2 (E_isclose _ _)) by exact H; cbn [negb].
  destruct (gram_fin n (tab2 m n f) (proj2 (tab2_matrix m n f))) as [G ->]; cbn [bind]; exists G; reflexivity.
Qed.
(** Rows inside the domain sum to 1, the others to 0. *)
Lemma zsum_strays (g : list R -> R) (out : list R -> bool) rows : (forall r, In r rows -> g r = if out r then 0 else 1) ->
  zsum 0 (length rows) (fun i => g (nth (Z.to_nat i) rows [])) = INR (length rows) - INR (length (filter out rows)).
Proof.
  induction rows as [|r l IH] using rev_ind; intros H; [cbn; ring|].
  rewrite app_length; cbn [length]; rewrite Nat.add_1_r; cbn [zsum].
  rewrite (zsum_ext _ _ _ (fun i => g (nth (Z.to_nat i) l []))) by (intros i Hi; rewrite app_nth1 by lia; reflexivity).
  rewrite IH by (intros; apply H, in_or_app; left; assumption).
  rewrite Z.add_0_l, Nat2Z.id, nth_middle, filter_app, app_length, S_INR, plus_INR, H by (apply in_or_app; right; left; reflexivity).
  cbn [filter]; destruct (out r); cbn [length INR]; ring.
Qed.
Lemma strays_close m k : (k <= m)%nat ->
  close (1/100000) (1/100000000) (INR m - INR k) (IZR (Z.of_nat m)) <-> INR k <= 1/100000000 + 1/100000 * INR m.
Proof.
  intros H; unfold close; rewrite <- INR_IZR_INZ; pose proof (pos_INR k); pose proof (pos_INR m).
  replace (INR m - INR k - INR m) with (- INR k) by ring; rewrite Rabs_Ropp, !Rabs_pos_eq by lra; tauto.
Qed.
Lemma filter_le {A} (f : A -> bool) l : (length (filter f l) <= length l)%nat.
Proof. induction l as [|x l IH]; cbn; [lia|]; destruct (f x); cbn; lia. Qed.
Lemma bspline_row_sum p n U u : clamped (Z.of_nat p) (Z.of_nat n) U ->
  zsum 0 n (fun i => bspline U p i u) = if outsideb (kn U (Z.of_nat p)) (kn U (Z.of_nat n)) u then 0 else 1.
Proof.
  intros HC; destruct (clamped_facts _ _ U HC) as (_ & _ & _ & HU & _ & _ & HE & H0 & _); unfold outsideb.
  assert (Z0 : u < kn U (Z.of_nat p) \/ kn U (Z.of_nat n) < u -> zsum 0 n (fun i => bspline U p i u) = 0).
  { intros H; rewrite (zsum_ext _ _ _ (fun _ => 0)); [clear; induction n as [|n IH]; cbn [zsum]; [reflexivity|rewrite IH; ring]|].
    intros i Hi; apply bspline_outside_domain; auto. destruct H; [left|right]; lra. }
  destruct (Rlt_dec u _); [apply Z0; auto|]; destruct (Rlt_dec _ u); [apply Z0; auto|]; apply bspline_unity; [exact HC|lra].
Qed.

Lemma curve_mask_tab n : (1 <= n)%nat ->
  curve_mask (Z.of_nat n) = Ok (tab n (fun i => (i =? 0)%Z || (i =? Z.of_nat n - 1)%Z)).
Proof.
  intros Hn; unfold curve_mask; rewrite np_full_tab; cbn [bind]; rewrite aset_tab by lia; cbn [bind].
  rewrite aset_tab_neg by lia; f_equal; apply tab_ext; intros i Hi; unfold fupd.
  destruct (Z.eqb_spec i (Z.of_nat n + -1)); destruct (Z.eqb_spec i 0); destruct (Z.eqb_spec i (Z.of_nat n - 1)); cbn; try lia; reflexivity.
Qed.

(** ** Errors as sums *)
Lemma curve_sum_dot U p c n u : length c = n -> dotR (tab n (fun j => bspline U p j u)) c = curve_sum U p c u.
Proof.
  intros Hc; rewrite (dotR_zsum n) by (auto; apply tab_length); unfold curve_sum; rewrite Hc.
  apply zsum_ext; intros i Hi; rewrite nth_tab by lia; rewrite Z2Nat.id by lia; reflexivity.
Qed.
Lemma curve_err_sq U p P rows n : length P = n ->
  curve_err U p P rows = sq_err3 (map (fun r => tab n (fun j => bspline U p j (nth 3 r 0))) rows) rows P.
Proof.
  intros HP; unfold curve_err, sq_err3, sq_err; induction rows as [|r rows IH]; [cbn; ring|].
  change (coords 0 (r :: rows)) with (nth 0 r 0 :: coords 0 rows).
  change (coords 1 (r :: rows)) with (nth 1 r 0 :: coords 1 rows).
  change (coords 2 (r :: rows)) with (nth 2 r 0 :: coords 2 rows).
  cbn [map combine fold_right fst snd]; rewrite IH.
  rewrite !curve_sum_dot by (rewrite coords_length; exact HP).
  unfold point_err, curve_xyz; cbn [map fold_right nth]; ring.
Qed.

Lemma mapM_map {X Y T} (f : Y -> res T) (h : X -> Y) g l : (forall x, In x l -> f (h x) = Ok (g x)) -> mapM f (map h l) = Ok (map g l).
Proof.
  induction l as [|x l IH]; intros H; [reflexivity|].
  cbn [map mapM]; rewrite H by (left; reflexivity); cbn [bind]; rewrite IH by (intros; apply H; right; assumption); reflexivity.
Qed.
Definition last_param (r : list R) : R := nth 3 r 0.
Lemma acol_last rows : Forall (fun r => length r = 4%nat) rows ->
  acol (fin2 rows : list (list Exact)) (-1) = Ok (fin (map last_param rows)).
Proof.
  intros HR; unfold acol, fin2, fin at 2; rewrite map_map; apply mapM_map; intros r Hr.
  pose proof (proj1 (Forall_forall _ _) HR r Hr) as L; cbn beta in L.
  destruct r as [|a [|b [|c [|d [|]]]]]; try discriminate; reflexivity.
Qed.

Lemma map_as_tab {A B} (f : A -> B) l d : map f l = tab (length l) (fun i => f (nth (Z.to_nat i) l d)).
Proof. rewrite (list_as_tab l d) at 1; apply map_tab. Qed.

Lemma single_fit_curve_gen sv c p U P rows : tight (Z.of_nat p) (len P) U ->
  c_degree c = Some (Z.of_nat p) -> c_ctrl c = Some (fin2 P) -> c_kv c = Some (fin U) ->
  Forall (fun r => length r = 3%nat) P -> Forall (fun r => length r = 4%nat) rows ->
  let strays := INR (curve_strays U (Z.of_nat p) (len P) rows) in
  let allowed := 1/100000000 + 1/100000 * INR (length rows) in
  (allowed < strays -> forall set, single_fit_curve set sv c (fin2 rows) = Err ValueError) /\
  (strays <= allowed -> forall set e, (forall M, sv_cond sv M = Err e) -> single_fit_curve set sv c (fin2 rows) = Err e) /\
  (strays <= allowed -> least_squares sv ->
   exists P', single_fit_curve store_ctrl sv c (fin2 rows) = Ok (mkCurve (c_degree c) (Some (fin2 P')) (c_kv c) (c_dim c)) /\
    length P' = length P /\ Forall (fun r => length r = 3%nat) P' /\
    nth 0 P' [] = nth 0 P [] /\ last P' [] = last P [] /\
    forall Z, length Z = length P -> nth 0 Z [] = nth 0 P [] -> last Z [] = last P [] -> curve_err U p P' rows <= curve_err U p Z rows).
Proof.
  intros (HC & H1 & H2) Hd Hp Hk H3 HR4 strays allowed.
  set (m := length rows); set (n := length P).
  assert (Hn : (1 <= n)%nat).
  { destruct HC as ((? & ? & _) & _); unfold len in *; unfold n; lia. }
  set (B := fun i j => bspline U p j (last_param (nth (Z.to_nat i) rows []))).
  assert (EN : map (fun r => tab n (fun j => bspline U p j (nth 3 r 0))) rows = tab2 m n B) by (rewrite (map_as_tab _ rows []); reflexivity).
  assert (ET : zsum 0 m (fun i => zsum 0 n (B i)) = INR m - strays).
  { unfold strays, curve_strays, m.
    apply (zsum_strays (fun r => zsum 0 n (fun j => bspline U p j (nth 3 r 0)))
             (fun r => outsideb (kn U (Z.of_nat p)) (kn U (len P)) (nth 3 r 0))); intros r _; apply bspline_row_sum; exact HC. }
  assert (EC : close (1/100000) (1/100000000) (INR m - strays) (IZR (Z.of_nat m)) <-> strays <= allowed) by (apply strays_close, filter_le).
  assert (EM : forall set, single_fit_curve set sv c (fin2 rows) =
     let* _ := check_unity sv (Z.of_nat n) (fin2 (tab2 m n B)) (Z.of_nat m) in
     let* mask := curve_mask (Z.of_nat n) in
     let* new := fit_coordinates sv (fin2 (tab2 m n B)) (fin2 rows) (fin2 P) mask in set c new).
  { intros set; unfold single_fit_curve; rewrite (acol_last rows HR4); cbn [bind].
  unfold curve_fields; rewrite Hd, Hp, Hk; cbn [bind].
  replace (zlen (fin2 rows)) with (Z.of_nat m) by (unfold zlen, fin2; rewrite map_length; reflexivity).
  rewrite (curve_matrix_tab (Z.of_nat p) (fin2 P) (fin U) (fin (map last_param rows)) m n (fun i j => Fin (B i j) : Exact)).
  2: { rewrite zlen_fin; unfold len; rewrite map_length; reflexivity. }
  2: { rewrite zlen_fin2; reflexivity. }
  2: { intros i j e Hi Hj He; unfold last_param in *.
       rewrite (aget_nth _ _ (Fin 0 : Exact)) in He by (rewrite zlen_fin; unfold len; rewrite map_length; exact Hi).
       injection He as <-; unfold fin; rewrite (map_nth (Fin : R -> Exact)).
       unfold B, last_param.
       replace (nth (Z.to_nat i) (map (fun r => nth 3 r 0) rows) 0) with (nth 3 (nth (Z.to_nat i) rows []) 0)
         by (symmetry; exact (map_nth (fun r => nth 3 r 0) rows [] (Z.to_nat i))).
       apply (one_basis_function_bspline U p (len P)); auto. }
  cbn [bind]; rewrite <- fin2_tab2.
  replace (zlen (fin2 P)) with (Z.of_nat n) by (rewrite zlen_fin2; reflexivity).
  reflexivity. }
  split; [intros H set; rewrite EM, check_unity_bad by (rewrite ET, EC; lra); reflexivity|].
  split; [intros H set e He; destruct (check_unity_good sv m n B) as [G EG]; [rewrite ET, EC; exact H|]; rewrite EM, EG, He; reflexivity|].
  intros H HS; destruct (check_unity_good sv m n B) as [G EG]; [rewrite ET, EC; exact H|].
  destruct (proj2 HS G) as [cnd ECd]; rewrite EM, EG, ECd.
  cbn [bind]; rewrite (curve_mask_tab n Hn); cbn [bind].
  set (mask := tab n (fun i => (i =? 0)%Z || (i =? Z.of_nat n - 1)%Z)).
  destruct (fit_coordinates_exact sv (tab2 m n B) rows P mask n 4 HS (proj2 (tab2_matrix m n B))) as (P' & E & LP & F3 & KP & OP);
    auto; [apply tab_length|apply tab_length|].
  assert (MT : forall i, nth i mask false = true <-> (i < n)%nat /\ (i = 0%nat \/ i = (n - 1)%nat)).
  { intros i; unfold mask; destruct (Nat.lt_ge_cases i n) as [Hi|Hi].
    - rewrite nth_tab by exact Hi; rewrite Bool.orb_true_iff, !Z.eqb_eq; split; [intros [?|?]|intros [_ [?|?]]]; try split; try lia.
    - rewrite nth_overflow by (rewrite tab_length; exact Hi); split; [discriminate|lia]. }
  assert (LN : forall (A : list (list R)), length A = n -> last A [] = nth (n - 1) A []).
  { intros A HA; destruct (exists_last (l := A) ltac:(intros ->; cbn in HA; lia)) as (A' & x & ->).
    rewrite last_last, app_length in *; cbn in HA; rewrite app_nth2, <- HA by lia.
    replace (length A' + 1 - 1 - length A')%nat with 0%nat by lia; reflexivity. }
  exists P'; rewrite E; cbn [bind]; split; [unfold store_ctrl; rewrite Hd, Hk; reflexivity|]; split; [exact LP|]; split; [exact F3|].
  split; [apply KP, MT; lia|]; split; [rewrite !LN by auto; apply KP, MT; lia|].
  intros Z LZ Z0 Z1; rewrite !(curve_err_sq _ _ _ _ n) by auto; rewrite EN; apply OP; [exact LZ|].
  intros i Hi; apply MT in Hi; destruct Hi as (_ & [-> | ->]); [exact Z0|].
  rewrite !LN in Z1 by auto; exact Z1.
Qed.

Lemma curve_strays_none U p n rows : Forall (fun r => kn U p <= nth 3 r 0 <= kn U n) rows -> curve_strays U p n rows = 0%nat.
Proof.
  unfold curve_strays; induction 1 as [|r l Hr _ IH]; [reflexivity|]; cbn [filter]; unfold outsideb at 1.
  destruct (Rlt_dec _ _); [lra|]; destruct (Rlt_dec _ _); [lra|]; exact IH.
Qed.
Lemma single_fit_curve_exact sv c p U P rows : least_squares sv -> tight (Z.of_nat p) (len P) U ->
  c_degree c = Some (Z.of_nat p) -> c_ctrl c = Some (fin2 P) -> c_kv c = Some (fin U) ->
  Forall (fun r => length r = 3%nat) P ->
  Forall (fun r => length r = 4%nat /\ kn U (Z.of_nat p) <= nth 3 r 0 <= kn U (len P)) rows ->
  exists P', single_fit_curve store_ctrl sv c (fin2 rows) = Ok (mkCurve (c_degree c) (Some (fin2 P')) (c_kv c) (c_dim c)) /\
    length P' = length P /\ Forall (fun r => length r = 3%nat) P' /\
    nth 0 P' [] = nth 0 P [] /\ last P' [] = last P [] /\
    forall Z, length Z = length P -> nth 0 Z [] = nth 0 P [] -> last Z [] = last P [] -> curve_err U p P' rows <= curve_err U p Z rows.
Proof.
  intros HS HT Hd Hp Hk H3 HR; destruct (single_fit_curve_gen sv c p U P rows HT Hd Hp Hk H3) as (_ & _ & H).
  - revert HR; apply Forall_impl; tauto.
  - apply H; [|exact HS]; rewrite curve_strays_none by (revert HR; apply Forall_impl; tauto); pose proof (pos_INR (length rows)); cbn [INR]; lra.
Qed.
