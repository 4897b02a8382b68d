(** The store of ModelRef.v: well-formedness, growth, and curve-level operations
    against the by-value model. *)
From Verif Require Import Py Num ModelKnots ModelCurve ModelSurface ModelInit ModelParam ModelFit ModelIO ModelData ModelRef PyLemmas.
Open Scope Z_scope.

Lemma put_length {A} i (x : A) l : length (put i x l) = length l.
Proof. revert i; induction l as [|y t IH]; intros [|i]; cbn [put length]; try rewrite IH; reflexivity. Qed.
Lemma put_same {A} i (x d : A) l : (i < length l)%nat -> nth i (put i x l) d = x.
Proof. revert i; induction l as [|y t IH]; intros [|i] H; cbn [put length nth] in *; try lia; [reflexivity|apply IH; lia]. Qed.
Lemma put_other {A} i j (x d : A) l : i <> j -> nth j (put i x l) d = nth j l d.
Proof.
  revert i j; induction l as [|y t IH]; intros [|i] [|j] H; cbn [put nth]; try reflexivity; try congruence.
  apply IH; congruence.
Qed.
Lemma put_in {A} i (x y : A) l : In y (put i x l) -> y = x \/ In y l.
Proof.
  revert i; induction l as [|z t IH]; intros [|i]; cbn [put In]; try tauto.
  - intros [->|H]; tauto.
  - intros [->|H]; [tauto|destruct (IH _ H); tauto].
Qed.

Definition inrng {A} (l : list A) (o : option nat) : Prop := match o with Some a => (a < length l)%nat | None => True end.
Lemma inrng_len {A} (l m : list A) o : (length l <= length m)%nat -> inrng l o -> inrng m o.
Proof. destruct o; cbn [inrng]; [lia|trivial]. Qed.

Section Ref.
Context {K : Num}.
Notation store := (store K).
Implicit Types s : store.

Definition cur_wf s (c : rcurve) : Prop := inrng (h_mat s) (rc_ctrl c) /\ inrng (h_vec s) (rc_kv c).
Definition sur_wf s (f : rsurf) : Prop :=
  (rs_ctrl f < length (h_mat s))%nat /\ (rs_ku f < length (h_vec s))%nat /\ (rs_kv f < length (h_vec s))%nat.
Definition bp_wf s (b : rproblem) : Prop :=
  inrng (h_mat s) (rb_data b) /\ inrng (h_vec s) (rb_start b) /\ inrng (h_vec s) (rb_end b) /\ inrng (h_cur s) (rb_init b) /\
  inrng (h_mat s) (rb_param b) /\ inrng (h_cur s) (rb_fit b).
Definition bd_wf s (b : rbound) : Prop := inrng (h_cur s) (rd_fit b) /\ inrng (h_mat s) (rd_param b).
Definition ip_wf s (p : rinterior) : Prop :=
  inrng (h_mat s) (ri_data p) /\ inrng (h_bd s) (ri_top p) /\ inrng (h_bd s) (ri_bottom p) /\ inrng (h_sur s) (ri_init p) /\
  inrng (h_mat s) (ri_param p) /\ inrng (h_sur s) (ri_fit p).
Definition wf s : Prop :=
  (forall c, In c (h_cur s) -> cur_wf s c) /\ (forall f, In f (h_sur s) -> sur_wf s f) /\ (forall b, In b (h_bp s) -> bp_wf s b) /\
  (forall b, In b (h_bd s) -> bd_wf s b) /\ (forall p, In p (h_ip s) -> ip_wf s p).

(** Sizes only: what well-formedness of an object depends on. *)
Definition grown s s' : Prop :=
  (length (h_vec s) <= length (h_vec s') /\ length (h_mat s) <= length (h_mat s') /\ length (h_cur s) <= length (h_cur s') /\
   length (h_sur s) <= length (h_sur s') /\ length (h_bd s) <= length (h_bd s'))%nat.
Lemma grown_wf s s' : grown s s' -> (forall c, cur_wf s c -> cur_wf s' c) /\ (forall f, sur_wf s f -> sur_wf s' f) /\
  (forall b, bp_wf s b -> bp_wf s' b) /\ (forall b, bd_wf s b -> bd_wf s' b) /\ (forall p, ip_wf s p -> ip_wf s' p).
Proof.
  intros (V & M & C & F & D); unfold cur_wf, sur_wf, bp_wf, bd_wf, ip_wf.
  repeat split; repeat match goal with H : _ /\ _ |- _ => destruct H end; try lia; eapply inrng_len; eauto.
Qed.
(** A list of objects after the change: old ones, or well-formed ones. *)
Lemma wf_step s s' : wf s -> grown s s' ->
  (forall c, In c (h_cur s') -> In c (h_cur s) \/ cur_wf s' c) -> (forall f, In f (h_sur s') -> In f (h_sur s) \/ sur_wf s' f) ->
  (forall b, In b (h_bp s') -> In b (h_bp s) \/ bp_wf s' b) -> (forall b, In b (h_bd s') -> In b (h_bd s) \/ bd_wf s' b) ->
  (forall p, In p (h_ip s') -> In p (h_ip s) \/ ip_wf s' p) -> wf s'.
Proof.
  intros (W1 & W2 & W3 & W4 & W5) G H1 H2 H3 H4 H5; destruct (grown_wf s s' G) as (G1 & G2 & G3 & G4 & G5).
  split; [|split; [|split; [|split]]]; intros x Hx; [destruct (H1 x Hx)|destruct (H2 x Hx)|destruct (H3 x Hx)|destruct (H4 x Hx)|destruct (H5 x Hx)]; auto.
Qed.

(** The curve-level operations extend the store; curves below [n] stay. *)
Definition ext (n : nat) s s' : Prop :=
  (exists v, h_vec s' = h_vec s ++ v) /\ (exists m, h_mat s' = h_mat s ++ m) /\
  ((length (h_cur s) <= length (h_cur s'))%nat /\ forall k, (k < n)%nat -> cur_at s' k = cur_at s k) /\
  h_sur s' = h_sur s /\ h_bp s' = h_bp s /\ h_bd s' = h_bd s /\ h_ip s' = h_ip s.
Lemma ext_refl n s : ext n s s.
Proof. repeat split; try (exists []; rewrite app_nil_r); reflexivity. Qed.
Lemma ext_trans n s s' s'' : ext n s s' -> ext n s' s'' -> ext n s s''.
Proof.
  intros ([v V] & [m M] & [C1 C2] & F & B & D & P) ([v' V'] & [m' M'] & [C1' C2'] & F' & B' & D' & P').
  split; [exists (v ++ v'); rewrite V', V, app_assoc; reflexivity|]; split; [exists (m ++ m'); rewrite M', M, app_assoc; reflexivity|].
  split; [split; [lia|]; intros k Hk; rewrite C2', C2 by exact Hk; reflexivity|].
  repeat split; congruence.
Qed.
Lemma vec_app s s' v a : h_vec s' = h_vec s ++ v -> (a < length (h_vec s))%nat -> vec_at s' a = vec_at s a.
Proof. intros E H; unfold vec_at; rewrite E, app_nth1 by exact H; reflexivity. Qed.
Lemma mat_app s s' m a : h_mat s' = h_mat s ++ m -> (a < length (h_mat s))%nat -> mat_at s' a = mat_at s a.
Proof. intros E H; unfold mat_at; rewrite E, app_nth1 by exact H; reflexivity. Qed.
Lemma ext_vec n s s' a : ext n s s' -> (a < length (h_vec s))%nat -> vec_at s' a = vec_at s a.
Proof. intros ([v V] & _) H; exact (vec_app _ _ _ _ V H). Qed.
Lemma ext_mat n s s' a : ext n s s' -> (a < length (h_mat s))%nat -> mat_at s' a = mat_at s a.
Proof. intros (_ & [m M] & _) H; exact (mat_app _ _ _ _ M H). Qed.
Lemma wf_cur s k : wf s -> (k < length (h_cur s))%nat -> cur_wf s (cur_at s k).
Proof. intros W H; apply (proj1 W); apply nth_In; exact H. Qed.
Lemma curve_val_of s s' k : cur_wf s (cur_at s k) -> cur_at s' k = cur_at s k ->
  (forall a, (a < length (h_vec s))%nat -> vec_at s' a = vec_at s a) -> (forall a, (a < length (h_mat s))%nat -> mat_at s' a = mat_at s a) ->
  curve_val s' k = curve_val s k.
Proof.
  intros [W1 W2] E V M; unfold curve_val; rewrite E; f_equal.
  - destruct (rc_ctrl (cur_at s k)) as [a|]; cbn [option_map inrng] in *; [rewrite M by exact W1|]; reflexivity.
  - destruct (rc_kv (cur_at s k)) as [a|]; cbn [option_map inrng] in *; [rewrite V by exact W2|]; reflexivity.
Qed.
Lemma ext_curve n s s' k : wf s -> ext n s s' -> (k < n)%nat -> (k < length (h_cur s))%nat -> curve_val s' k = curve_val s k.
Proof.
  intros W E Hn Hk; apply curve_val_of; [apply wf_cur; assumption|apply E; exact Hn|intros a H; eapply ext_vec; eauto|intros a H; eapply ext_mat; eauto].
Qed.

(** ** Simulation of a computation on values *)
Definition sim {A B} (n : nat) (m : rm A) s (v : res B) (R : store -> A -> B -> Prop) : Prop :=
  wf (fst (m s)) /\ ext n s (fst (m s)) /\
  match snd (m s), v with
  | Ok a, Ok b => R (fst (m s)) a b
  | Err e, Err e' => e = e'
  | Diverge, Diverge => True
  | _, _ => False
  end.
Lemma sim_bind {A B A' B'} n (m : rm A) (k : A -> rm A') s (v : res B) (w : B -> res B') R R' :
  sim n m s v R -> (forall s' a b, wf s' -> ext n s s' -> R s' a b -> sim n (k a) s' (w b) R') -> sim n (rbind m k) s (bind v w) R'.
Proof.
  intros (W & E & H) HK; unfold sim, rbind in *; destruct (m s) as [s' [a|e|]], v as [b|e'|]; cbn [fst snd bind] in *; try contradiction; auto.
  destruct (HK s' a b W E H) as (W' & E' & H'); split; [exact W'|]; split; [exact (ext_trans _ _ _ _ E E')|exact H'].
Qed.
Lemma sim_ok {A B} n s (a : A) (b : B) (R : store -> A -> B -> Prop) : wf s -> R s a b -> sim n (rpure (Ok a)) s (Ok b) R.
Proof. intros W H; split; [exact W|]; split; [apply ext_refl|exact H]. Qed.
Lemma sim_err {A B} n s e (R : store -> A -> B -> Prop) : wf s -> sim n (rpure (Err e)) s (Err e) R.
Proof. intros W; split; [exact W|]; split; [apply ext_refl|reflexivity]. Qed.
(** A step without effect on either side. *)
Lemma sim_lift {A A' B'} n (r : res A) (k : A -> rm A') s (w : A -> res B') R' : wf s ->
  (forall a, r = Ok a -> sim n (k a) s (w a) R') -> sim n (rbind (rpure r) k) s (bind r w) R'.
Proof.
  intros W H; destruct r as [a|e|]; [|split; [exact W|]; split; [apply ext_refl|reflexivity]|split; [exact W|]; split; [apply ext_refl|exact I]].
  exact (H a eq_refl).
Qed.
Lemma sim_read {A A' B'} n (f : store -> A) (k : A -> rm A') s (w : res B') R' : sim n (k (f s)) s w R' -> sim n (rbind (rread f) k) s w R'.
Proof. exact (fun H => H). Qed.
(** A step with effect that the value side does not see. *)
Lemma sim_seq {A A' B'} n (m : rm A) (k : A -> rm A') s (w : res B') (R : store -> A -> Prop) R' :
  sim n m s (Ok tt) (fun s' a _ => R s' a) -> (forall s' a, wf s' -> ext n s s' -> R s' a -> sim n (k a) s' w R') -> sim n (rbind m k) s w R'.
Proof.
  intros H HK; change w with (bind (Ok tt) (fun _ : unit => w)); eapply sim_bind; [exact H|]; intros s' a b W E HR; exact (HK s' a W E HR).
Qed.
Lemma sim_weaken {A B} n (m : rm A) s (v : res B) (R R' : store -> A -> B -> Prop) : sim n m s v R ->
  (forall s' a b, wf s' -> ext n s s' -> R s' a b -> R' s' a b) -> sim n m s v R'.
Proof.
  intros (W & E & H) HR; split; [exact W|]; split; [exact E|]; destruct (snd (m s)), v; auto.
Qed.

(** ** New objects *)
Lemma sim_vec n l s : wf s -> sim n (new_vec l) s (Ok tt) (fun s' a _ => a = length (h_vec s) /\ vec_at s' a = l /\ (a < length (h_vec s'))%nat /\ h_mat s' = h_mat s /\ h_cur s' = h_cur s).
Proof.
  intros W; unfold new_vec; split; [|split; [|split; [reflexivity|split; [|split; [|split; reflexivity]]]]]; cbn [fst].
  - apply (wf_step s); auto; unfold grown; cbn [h_vec h_mat h_cur h_sur h_bd]; rewrite ?app_length; lia.
  - split; [exists [l]; reflexivity|]; split; [exists []; rewrite app_nil_r; reflexivity|]; repeat split; reflexivity.
  - unfold vec_at; cbn [h_vec]; rewrite app_nth2, Nat.sub_diag by lia; reflexivity.
  - cbn [h_vec snd]; rewrite app_length; cbn [length]; lia.
Qed.
Lemma sim_mat n m s : wf s -> sim n (new_mat m) s (Ok tt) (fun s' a _ => a = length (h_mat s) /\ mat_at s' a = m /\ (a < length (h_mat s'))%nat /\ h_vec s' = h_vec s /\ h_cur s' = h_cur s).
Proof.
  intros W; unfold new_mat; split; [|split; [|split; [reflexivity|split; [|split; [|split; reflexivity]]]]]; cbn [fst].
  - apply (wf_step s); auto; unfold grown; cbn [h_vec h_mat h_cur h_sur h_bd]; rewrite ?app_length; lia.
  - split; [exists []; rewrite app_nil_r; reflexivity|]; split; [exists [m]; reflexivity|]; repeat split; reflexivity.
  - unfold mat_at; cbn [h_mat]; rewrite app_nth2, Nat.sub_diag by lia; reflexivity.
  - cbn [h_mat snd]; rewrite app_length; cbn [length]; lia.
Qed.
Lemma sim_cur n c s : wf s -> (n <= length (h_cur s))%nat -> cur_wf s c ->
  sim n (new_cur c) s (Ok tt) (fun s' k _ => k = length (h_cur s) /\ cur_at s' k = c /\ (k < length (h_cur s'))%nat /\ h_vec s' = h_vec s /\ h_mat s' = h_mat s).
Proof.
  intros W Hn Hc; unfold new_cur; split; [|split; [|split; [reflexivity|split; [|split; [|split; reflexivity]]]]]; cbn [fst].
  - apply (wf_step s); auto; [unfold grown; cbn [h_vec h_mat h_cur h_sur h_bd]; rewrite ?app_length; lia|].
    cbn [h_cur]; intros x Hx; apply in_app_or in Hx; destruct Hx as [Hx|[<-|[]]]; [left; exact Hx|right; exact Hc].
  - split; [exists []; rewrite app_nil_r; reflexivity|]; split; [exists []; rewrite app_nil_r; reflexivity|].
    split; [|repeat split; reflexivity]; cbn [h_cur]; rewrite app_length; split; [lia|].
    intros k Hk; unfold cur_at; cbn [h_cur]; rewrite app_nth1 by lia; reflexivity.
  - unfold cur_at; cbn [h_cur]; rewrite app_nth2, Nat.sub_diag by lia; reflexivity.
  - cbn [h_cur snd]; rewrite app_length; cbn [length]; lia.
Qed.
Lemma sim_put n k c s : wf s -> (n <= k < length (h_cur s))%nat -> cur_wf s c ->
  sim n (put_cur k c) s (Ok tt) (fun s' _ _ => cur_at s' k = c /\ length (h_cur s') = length (h_cur s) /\ h_vec s' = h_vec s /\ h_mat s' = h_mat s).
Proof.
  intros W Hk Hc; unfold put_cur; split; [|split; [|split; [|split; [|split; reflexivity]]]]; cbn [fst].
  - apply (wf_step s); auto; [unfold grown; cbn [h_vec h_mat h_cur h_sur h_bd]; rewrite ?put_length; lia|].
    cbn [h_cur]; intros x Hx; apply put_in in Hx; destruct Hx as [->|Hx]; [right; exact Hc|left; exact Hx].
  - split; [exists []; rewrite app_nil_r; reflexivity|]; split; [exists []; rewrite app_nil_r; reflexivity|].
    split; [|repeat split; reflexivity]; cbn [h_cur]; rewrite put_length; split; [lia|].
    intros j Hj; unfold cur_at; cbn [h_cur]; apply put_other; lia.
  - unfold cur_at; cbn [h_cur]; apply put_same; lia.
  - cbn [h_cur]; apply put_length.
Qed.
Lemma curve_val_eq s k c : cur_at s k = c ->
  curve_val s k = mkCurve (rc_degree c) (option_map (fun a => dt_rows (mat_at s a)) (rc_ctrl c)) (option_map (vec_at s) (rc_kv c)) (rc_dim c).
Proof. intros <-; reflexivity. Qed.
Lemma val_same s s' c : h_vec s' = h_vec s -> h_mat s' = h_mat s ->
  option_map (fun a => dt_rows (mat_at s' a)) (rc_ctrl c) = option_map (fun a => dt_rows (mat_at s a)) (rc_ctrl c) /\
  option_map (vec_at s') (rc_kv c) = option_map (vec_at s) (rc_kv c).
Proof. intros V M; unfold vec_at, mat_at; rewrite V, M; split; reflexivity. Qed.

(** ** Setters *)
Lemma sim_set_degree n k d s : wf s -> (n <= k < length (h_cur s))%nat ->
  sim n (r_set_degree k d) s (set_degree (curve_val s k) d) (fun s' _ v => curve_val s' k = v /\ length (h_cur s') = length (h_cur s) /\
    cur_at s' k = mkRC (Some d) (rc_ctrl (cur_at s k)) (rc_kv (cur_at s k)) (rc_dim (cur_at s k)) /\ h_vec s' = h_vec s /\ h_mat s' = h_mat s).
Proof.
  intros W Hk; unfold r_set_degree; apply sim_read, sim_read; unfold set_degree; destruct (d <? 1) eqn:Ed; [apply sim_err; exact W|].
  destruct (sim_put n k (mkRC (Some d) (rc_ctrl (cur_at s k)) (rc_kv (cur_at s k)) (rc_dim (cur_at s k))) s W Hk) as (W' & E' & C & L & V & M).
  { apply (wf_cur s k W); lia. }
  split; [exact W'|]; split; [exact E'|]; cbn [rbind rpure snd] in *.
  split; [|split; [exact L|split; [exact C|split; assumption]]].
  rewrite (curve_val_eq _ _ _ C); cbn [rc_degree rc_ctrl rc_kv rc_dim]; destruct (val_same s _ (cur_at s k) V M) as [-> ->]; reflexivity.
Qed.
Lemma sim_set_ctrl n k a s : wf s -> (n <= k < length (h_cur s))%nat -> (a < length (h_mat s))%nat ->
  sim n (r_set_ctrl k a) s (store_ctrl (curve_val s k) (dt_rows (mat_at s a))) (fun s' _ v => curve_val s' k = v /\ length (h_cur s') = length (h_cur s) /\
    cur_at s' k = mkRC (rc_degree (cur_at s k)) (Some a) (rc_kv (cur_at s k)) (rc_dim (cur_at s k)) /\ h_vec s' = h_vec s /\ h_mat s' = h_mat s).
Proof.
  intros W Hk Ha; unfold r_set_ctrl; apply sim_read; unfold store_ctrl.
  destruct (sim_put n k (mkRC (rc_degree (cur_at s k)) (Some a) (rc_kv (cur_at s k)) (rc_dim (cur_at s k))) s W Hk) as (W' & E' & C & L & V & M).
  { split; [exact Ha|apply (wf_cur s k W); lia]. }
  split; [exact W'|]; split; [exact E'|]; cbn [put_cur snd] in *.
  split; [|split; [exact L|split; [exact C|split; assumption]]].
  rewrite (curve_val_eq _ _ _ C); cbn [rc_degree rc_ctrl rc_kv rc_dim option_map]; destruct (val_same s _ (cur_at s k) V M) as [_ ->].
  unfold mat_at; rewrite M; reflexivity.
Qed.
Lemma sim_set_kv n k a s : wf s -> (n <= k < length (h_cur s))%nat -> (a < length (h_vec s))%nat ->
  sim n (r_set_kv k a) s (set_knot_vector (curve_val s k) (NdArray (vec_at s a))) (fun s' _ v => curve_val s' k = v /\ length (h_cur s') = length (h_cur s) /\
    rc_ctrl (cur_at s' k) = rc_ctrl (cur_at s k) /\ (rc_kv (cur_at s' k) = Some a \/ rc_kv (cur_at s' k) = rc_kv (cur_at s k)) /\
    h_vec s' = h_vec s /\ h_mat s' = h_mat s).
Proof.
  intros W Hk Ha; unfold r_set_kv; apply sim_read, sim_read, sim_read; unfold set_knot_vector.
  destruct (c_degree (curve_val s k)) as [p|] eqn:Ep; [|apply sim_err; exact W].
  destruct (c_ctrl (curve_val s k)) as [P|] eqn:EP; [|apply sim_err; exact W].
  apply sim_lift; [exact W|]; intros ok Eok; destruct ok; [|apply sim_ok; [exact W|split; [reflexivity|split; [reflexivity|split; [reflexivity|split; [right; reflexivity|split; reflexivity]]]]]].
  destruct (sim_put n k (mkRC (rc_degree (cur_at s k)) (rc_ctrl (cur_at s k)) (Some a) (rc_dim (cur_at s k))) s W Hk) as (W' & E' & C & L & V & M).
  { split; [apply (wf_cur s k W); lia|exact Ha]. }
  split; [exact W'|]; split; [exact E'|]; cbn [put_cur snd] in *.
  split; [|split; [exact L|split; [rewrite C; reflexivity|split; [left; rewrite C; reflexivity|split; assumption]]]].
  rewrite (curve_val_eq _ _ _ C); cbn [rc_degree rc_ctrl rc_kv rc_dim option_map]; destruct (val_same s _ (cur_at s k) V M) as [-> _].
  unfold vec_at at 1; rewrite V, <- Ep, <- EP; reflexivity.
Qed.
End Ref.
