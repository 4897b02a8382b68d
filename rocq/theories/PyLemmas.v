(** Reasoning principles for Py.v. *)
From Verif Require Import Py.
Open Scope Z_scope.


Lemma zlen_nonneg {A} (l : list A) : 0 <= zlen l.
Proof. unfold zlen; lia. Qed.

(** ** Tables: the list [f 0; ...; f (n-1)]. *)
Definition tab {A} (n : nat) (f : Z -> A) : list A := map (fun k => f (Z.of_nat k)) (seq 0 n).
Definition fupd {A} (f : Z -> A) (i : Z) (v : A) : Z -> A := fun j => if j =? i then v else f j.

Lemma tab_length {A} n (f : Z -> A) : length (tab n f) = n.
Proof. unfold tab; rewrite map_length, seq_length; reflexivity. Qed.
Lemma zlen_tab {A} n (f : Z -> A) : zlen (tab n f) = Z.of_nat n.
Proof. unfold zlen; rewrite tab_length; reflexivity. Qed.

Lemma tab_ext {A} n (f g : Z -> A) :
  (forall i, 0 <= i < Z.of_nat n -> f i = g i) -> tab n f = tab n g.
Proof.
  intros H; unfold tab; apply map_ext_in; intros k Hk.
  apply in_seq in Hk; apply H; lia.
Qed.

Lemma tab_S {A} n (f : Z -> A) : tab (S n) f = tab n f ++ [f (Z.of_nat n)].
Proof. unfold tab; rewrite seq_S, map_app; reflexivity. Qed.

Lemma tab_cons {A} n (f : Z -> A) : tab (S n) f = f 0 :: tab n (fun i => f (i + 1)).
Proof.
  unfold tab; cbn [seq map]; f_equal.
  rewrite <- seq_shift, map_map; apply map_ext; intros k; f_equal; lia.
Qed.

Lemma tab_app {A} n m (f : Z -> A) :
  tab (n + m) f = tab n f ++ tab m (fun i => f (Z.of_nat n + i)).
Proof.
  induction m as [|m IH].
  - rewrite Nat.add_0_r; cbn; rewrite app_nil_r; reflexivity.
  - rewrite Nat.add_succ_r, !tab_S, IH, <- app_assoc; do 3 f_equal; f_equal; lia.
Qed.

Lemma nth_error_tab {A} n (f : Z -> A) (i : nat) :
  (i < n)%nat -> nth_error (tab n f) i = Some (f (Z.of_nat i)).
Proof.
  intros H; unfold tab; rewrite nth_error_map.
  rewrite (nth_error_nth' _ 0%nat) by (rewrite seq_length; lia).
  rewrite seq_nth by lia; reflexivity.
Qed.

Lemma nth_tab {A} n (f : Z -> A) (i : nat) d :
  (i < n)%nat -> nth i (tab n f) d = f (Z.of_nat i).
Proof. intros H; erewrite nth_error_nth; [reflexivity | apply nth_error_tab; exact H]. Qed.

Lemma list_as_tab {A} (l : list A) d : l = tab (length l) (fun i => nth (Z.to_nat i) l d).
Proof.
  apply nth_ext with (d := d) (d' := d).
  - rewrite tab_length; reflexivity.
  - intros i Hi; rewrite nth_tab by exact Hi; rewrite Nat2Z.id; reflexivity.
Qed.

Lemma map_tab {A B} (g : A -> B) n f : map g (tab n f) = tab n (fun i => g (f i)).
Proof. unfold tab; rewrite map_map; reflexivity. Qed.

Lemma repeat_tab {A} (v : A) n : repeat v n = tab n (fun _ => v).
Proof.
  induction n as [|n IH]; [reflexivity|].
  rewrite tab_cons; cbn; rewrite IH; reflexivity.
Qed.

Lemma combine_tab {A B} n (f : Z -> A) (g : Z -> B) :
  combine (tab n f) (tab n g) = tab n (fun i => (f i, g i)).
Proof.
  revert f g; induction n as [|n IH]; intros f g; [reflexivity|].
  rewrite !tab_cons; cbn; rewrite IH; reflexivity.
Qed.

Lemma aget_tab {A} n (f : Z -> A) i :
  0 <= i < Z.of_nat n -> aget (tab n f) i = Ok (f i).
Proof.
  intros H; unfold aget; rewrite zlen_tab.
  destruct (Z.ltb_spec i 0); [lia|].
  destruct (Z.leb_spec 0 i); [|lia].
  destruct (Z.ltb_spec i (Z.of_nat n)); [|lia]; cbn [andb].
  rewrite nth_error_tab by lia; rewrite Z2Nat.id by lia; reflexivity.
Qed.

Lemma aget_tab_neg {A} n (f : Z -> A) i :
  - Z.of_nat n <= i < 0 -> aget (tab n f) i = Ok (f (Z.of_nat n + i)).
Proof.
  intros H; unfold aget; rewrite zlen_tab.
  destruct (Z.ltb_spec i 0); [|lia].
  destruct (Z.leb_spec 0 (i + Z.of_nat n)); [|lia].
  destruct (Z.ltb_spec (i + Z.of_nat n) (Z.of_nat n)); [|lia]; cbn [andb].
  rewrite nth_error_tab by lia; rewrite Z2Nat.id by lia; f_equal; f_equal; lia.
Qed.

Lemma aget_nth {A} (l : list A) i d :
  0 <= i < zlen l -> aget l i = Ok (nth (Z.to_nat i) l d).
Proof.
  intros H; rewrite (list_as_tab l d) at 1; rewrite aget_tab by exact H; reflexivity.
Qed.

Lemma aget_out {A} (l : list A) i : (i < - zlen l \/ zlen l <= i) -> aget l i = Err IndexError.
Proof.
  intros H; unfold aget; pose proof (zlen_nonneg l).
  set (j := if i <? 0 then i + zlen l else i).
  assert (E : ((0 <=? j) && (j <? zlen l)) = false).
  { apply andb_false_iff; unfold j; destruct (Z.ltb_spec i 0); destruct H.
    - left; apply Z.leb_gt; lia.
    - lia.
    - lia.
    - right; apply Z.ltb_ge; lia. }
  rewrite E; reflexivity.
Qed.

Lemma upd_tab {A} n (f : Z -> A) (i : nat) v :
  upd (tab n f) i v = tab n (fupd f (Z.of_nat i) v).
Proof.
  revert f i; induction n as [|n IH]; intros f i; [reflexivity|].
  rewrite !tab_cons; destruct i as [|i]; cbn [upd].
  - f_equal; apply tab_ext; intros j Hj; unfold fupd.
    destruct (Z.eqb_spec (j + 1) (Z.of_nat 0)); [lia|reflexivity].
  - rewrite IH; f_equal.
    apply tab_ext; intros j Hj; unfold fupd.
    destruct (Z.eqb_spec j (Z.of_nat i)); destruct (Z.eqb_spec (j + 1) (Z.of_nat (S i)));
      try lia; reflexivity.
Qed.

Lemma aset_tab {A} n (f : Z -> A) i v :
  0 <= i < Z.of_nat n -> aset (tab n f) i v = Ok (tab n (fupd f i v)).
Proof.
  intros H; unfold aset; rewrite zlen_tab.
  destruct (Z.ltb_spec i 0); [lia|].
  destruct (Z.leb_spec 0 i); [|lia].
  destruct (Z.ltb_spec i (Z.of_nat n)); [|lia]; cbn [andb].
  rewrite upd_tab, Z2Nat.id by lia; reflexivity.
Qed.

Lemma aset_tab_neg {A} n (f : Z -> A) i v :
  - Z.of_nat n <= i < 0 -> aset (tab n f) i v = Ok (tab n (fupd f (Z.of_nat n + i) v)).
Proof.
  intros H; unfold aset; rewrite zlen_tab.
  destruct (Z.ltb_spec i 0); [|lia].
  destruct (Z.leb_spec 0 (i + Z.of_nat n)); [|lia].
  destruct (Z.ltb_spec (i + Z.of_nat n) (Z.of_nat n)); [|lia]; cbn [andb].
  rewrite upd_tab, Z2Nat.id by lia.
  replace (i + Z.of_nat n) with (Z.of_nat n + i) by lia; reflexivity.
Qed.

Lemma np_full_tab {A} n (v : A) : np_full (Z.of_nat n) v = Ok (tab n (fun _ => v)).
Proof.
  unfold np_full; destruct (Z.ltb_spec (Z.of_nat n) 0); [lia|].
  rewrite Nat2Z.id, repeat_tab; reflexivity.
Qed.
Lemma np_full_tab' {A} z n (v : A) : z = Z.of_nat n -> np_full z v = Ok (tab n (fun _ => v)).
Proof. intros ->; apply np_full_tab. Qed.

Definition tab2 {A} (n m : nat) (f : Z -> Z -> A) : list (list A) :=
  tab n (fun i => tab m (f i)).
Definition fupd2 {A} (f : Z -> Z -> A) (i j : Z) (v : A) : Z -> Z -> A :=
  fun a b => if (a =? i) && (b =? j) then v else f a b.

Lemma np_full2_tab {A} n m zn zm (v : A) :
  zn = Z.of_nat n -> zm = Z.of_nat m -> np_full2 zn zm v = Ok (tab2 n m (fun _ _ => v)).
Proof.
  intros -> ->; unfold np_full2.
  destruct (Z.ltb_spec (Z.of_nat n) 0); [lia|].
  destruct (Z.ltb_spec (Z.of_nat m) 0); [lia|]; cbn [orb].
  rewrite !Nat2Z.id, !repeat_tab; reflexivity.
Qed.

Lemma tab2_ext {A} n m (f g : Z -> Z -> A) :
  (forall i j, 0 <= i < Z.of_nat n -> 0 <= j < Z.of_nat m -> f i j = g i j) ->
  tab2 n m f = tab2 n m g.
Proof. intros H; apply tab_ext; intros i Hi; apply tab_ext; intros j Hj; auto. Qed.

Lemma aget2_tab2 {A} n m (f : Z -> Z -> A) i j :
  0 <= i < Z.of_nat n -> 0 <= j < Z.of_nat m -> aget2 (tab2 n m f) i j = Ok (f i j).
Proof. intros; unfold aget2, tab2; rewrite aget_tab by auto; cbn [bind]; apply aget_tab; auto. Qed.

Lemma aset2_tab2 {A} n m (f : Z -> Z -> A) i j v :
  0 <= i < Z.of_nat n -> 0 <= j < Z.of_nat m ->
  aset2 (tab2 n m f) i j v = Ok (tab2 n m (fupd2 f i j v)).
Proof.
  intros Hi Hj; unfold aset2, tab2; rewrite aget_tab by auto; cbn [bind].
  rewrite aset_tab by auto; cbn [bind]; rewrite aset_tab by auto; f_equal.
  apply tab_ext; intros a Ha; unfold fupd, fupd2.
  destruct (Z.eqb_spec a i) as [->|]; cbn [andb]; reflexivity.
Qed.

(** ** Loops *)
Lemma for_list_app {X S} (l1 l2 : list X) (body : X -> S -> res S) s :
  for_list (l1 ++ l2) body s = bind (for_list l1 body s) (for_list l2 body).
Proof.
  revert s; induction l1 as [|x t IH]; intros s; cbn; [reflexivity|].
  destruct (body x s); cbn; auto.
Qed.

Lemma zrange_nil a b : b <= a -> zrange a b = [].
Proof. intros H; unfold zrange; replace (Z.to_nat (b - a)) with O by lia; reflexivity. Qed.

Lemma zrange_snoc a b : a <= b -> zrange a (b + 1) = zrange a b ++ [b].
Proof.
  intros H; unfold zrange; replace (Z.to_nat (b + 1 - a)) with (S (Z.to_nat (b - a))) by lia.
  rewrite seq_S, map_app; cbn; do 2 f_equal; lia.
Qed.

Lemma zrange_cons a b : a < b -> zrange a b = a :: zrange (a + 1) b.
Proof.
  intros H; unfold zrange; replace (Z.to_nat (b - a)) with (S (Z.to_nat (b - (a + 1)))) by lia.
  cbn [seq map]; f_equal; [lia|].
  rewrite <- seq_shift, map_map; apply map_ext; intros; lia.
Qed.

Lemma in_zrange a b i : In i (zrange a b) <-> a <= i < b.
Proof.
  unfold zrange; rewrite in_map_iff; split.
  - intros (k & <- & Hk); apply in_seq in Hk; lia.
  - intros H; exists (Z.to_nat (i - a)); split; [lia|]; apply in_seq; lia.
Qed.

Lemma zrange_length a b : length (zrange a b) = Z.to_nat (b - a).
Proof. unfold zrange; rewrite map_length, seq_length; reflexivity. Qed.

Lemma zrange_tab n : zrange 0 (Z.of_nat n) = tab n (fun i => i).
Proof. unfold zrange, tab; rewrite Z.sub_0_r, Nat2Z.id; reflexivity. Qed.

Lemma for_range_empty {S} a b (body : Z -> S -> res S) s :
  b <= a -> for_range a b body s = Ok s.
Proof. intros H; unfold for_range; rewrite zrange_nil by exact H; reflexivity. Qed.

(** Invariant rule: each iteration succeeds and re-establishes the invariant. *)
Lemma for_range_inv {S} (I : Z -> S -> Prop) a b (body : Z -> S -> res S) s0 :
  a <= b -> I a s0 ->
  (forall i s, a <= i < b -> I i s -> exists s', body i s = Ok s' /\ I (i + 1) s') ->
  exists s', for_range a b body s0 = Ok s' /\ I b s'.
Proof.
  intros Hab H0 Hstep.
  assert (G : forall k, (Z.of_nat k <= b - a) ->
    exists s', for_range a (a + Z.of_nat k) body s0 = Ok s' /\ I (a + Z.of_nat k) s').
  { induction k as [|k IH]; intros Hk.
    - exists s0; rewrite Z.add_0_r; split; [apply for_range_empty; lia|exact H0].
    - destruct IH as (s1 & E1 & I1); [lia|].
      destruct (Hstep (a + Z.of_nat k) s1) as (s2 & E2 & I2); [lia|exact I1|].
      exists s2; split.
      + replace (a + Z.of_nat (Datatypes.S k)) with (a + Z.of_nat k + 1) by lia.
        unfold for_range; rewrite zrange_snoc by lia; rewrite for_list_app.
        unfold for_range in E1; rewrite E1; cbn; rewrite E2; reflexivity.
      + replace (a + Z.of_nat (Datatypes.S k)) with (a + Z.of_nat k + 1) by lia; exact I2. }
  destruct (G (Z.to_nat (b - a))) as (s' & E & Ib); [lia|].
  exists s'; replace (a + Z.of_nat (Z.to_nat (b - a))) with b in * by lia; split; assumption.
Qed.

(** Functional form: the state is a known function of the loop index. *)
Lemma for_range_fun {S} (F : Z -> S) a b (body : Z -> S -> res S) s0 :
  a <= b -> s0 = F a ->
  (forall i, a <= i < b -> body i (F i) = Ok (F (i + 1))) ->
  for_range a b body s0 = Ok (F b).
Proof.
  intros Hab H0 Hstep.
  destruct (for_range_inv (fun i s => s = F i) a b body s0 Hab H0) as (s' & E & ->); [|exact E].
  intros i s Hi ->; exists (F (i + 1)); split; [apply Hstep; exact Hi|reflexivity].
Qed.

Lemma mapM_ok {X Y} (f : X -> res Y) (g : X -> Y) l :
  (forall x, In x l -> f x = Ok (g x)) -> mapM f l = Ok (map g l).
Proof.
  induction l as [|x t IH]; intros H; [reflexivity|].
  cbn; rewrite (H x) by (left; reflexivity); cbn.
  rewrite IH by (intros y Hy; apply H; right; exact Hy); reflexivity.
Qed.

Lemma mapM_tab {X Y} (f : X -> res Y) n (h : Z -> X) (g : Z -> Y) :
  (forall i, 0 <= i < Z.of_nat n -> f (h i) = Ok (g i)) -> mapM f (tab n h) = Ok (tab n g).
Proof.
  revert h g; induction n as [|n IH]; intros h g H; [reflexivity|].
  rewrite !tab_cons; cbn [mapM]; rewrite H by lia; cbn [bind].
  rewrite (IH _ (fun i => g (i + 1))) by (intros i Hi; apply H; lia); reflexivity.
Qed.


(** ** Slices *)
Lemma firstn_tab {A} n k (f : Z -> A) : firstn k (tab n f) = tab (Nat.min k n) f.
Proof.
  revert n f; induction k as [|k IH]; intros n f; [reflexivity|].
  destruct n as [|n]; [reflexivity|].
  cbn [Nat.min]; rewrite !tab_cons; cbn [firstn]; rewrite IH; reflexivity.
Qed.

Lemma skipn_tab {A} n k (f : Z -> A) :
  skipn k (tab n f) = tab (n - k) (fun i => f (Z.of_nat k + i)).
Proof.
  revert n f; induction k as [|k IH]; intros n f.
  - rewrite Nat.sub_0_r; cbn [skipn]; apply tab_ext; intros; f_equal; lia.
  - destruct n as [|n]; [reflexivity|].
    rewrite tab_cons; cbn [skipn]; rewrite IH; cbn [Nat.sub].
    apply tab_ext; intros; f_equal; lia.
Qed.

Lemma slice_tab {A} n (f : Z -> A) a b :
  0 <= a <= b -> b <= Z.of_nat n ->
  slice (tab n f) a b = tab (Z.to_nat (b - a)) (fun i => f (a + i)).
Proof.
  intros Ha Hb; unfold slice, slice_bound; rewrite zlen_tab.
  destruct (Z.ltb_spec a 0); [lia|]; destruct (Z.ltb_spec b 0); [lia|].
  rewrite !Z.min_l by lia.
  rewrite skipn_tab, firstn_tab, Z2Nat.id by lia.
  rewrite Nat.min_l by lia; reflexivity.
Qed.


(** ** Rows *)
Lemma broadcast_same {A} (v : list A) w : zlen v = w -> broadcast w v = Ok v.
Proof. intros <-; unfold broadcast; rewrite Z.eqb_refl; reflexivity. Qed.

Lemma aset_row_tab {A} n (f : Z -> list A) i v w :
  0 <= i < Z.of_nat n -> zlen (f i) = w -> zlen v = w ->
  aset_row (tab n f) i v = Ok (tab n (fupd f i v)).
Proof.
  intros Hi Hf Hv; unfold aset_row; rewrite aget_tab by exact Hi; cbn [bind].
  rewrite broadcast_same by congruence; cbn [bind]; apply aset_tab; exact Hi.
Qed.

Lemma fupd_same {A} (f : Z -> A) i v : fupd f i v i = v.
Proof. unfold fupd; rewrite Z.eqb_refl; reflexivity. Qed.
Lemma fupd_other {A} (f : Z -> A) i j v : j <> i -> fupd f i v j = f j.
Proof. intros H; unfold fupd; destruct (Z.eqb_spec j i); [contradiction|reflexivity]. Qed.

(** Splitting loops. *)
Lemma for_range_step {S} a b (body : Z -> S -> res S) s : a < b ->
  for_range a b body s = bind (body a s) (for_range (a + 1) b body).
Proof. intros H; unfold for_range; rewrite zrange_cons by exact H; reflexivity. Qed.
Lemma zrange_split a c b : a <= c <= b -> zrange a b = zrange a c ++ zrange c b.
Proof.
  intros H; remember (Z.to_nat (c - a)) as d eqn:Ed; revert a H Ed.
  induction d as [|d IH]; intros a H Ed.
  - replace a with c by lia; rewrite (zrange_nil c c) by lia; reflexivity.
  - rewrite (zrange_cons a b), (zrange_cons a c) by lia; cbn [app]; f_equal; apply IH; lia.
Qed.
Lemma for_range_split {S} a c b (body : Z -> S -> res S) s : a <= c <= b ->
  for_range a b body s = bind (for_range a c body s) (for_range c b body).
Proof. intros H; unfold for_range; rewrite (zrange_split a c b H), for_list_app; reflexivity. Qed.
