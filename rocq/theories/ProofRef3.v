(** Requests to boundary problems on the store against [bp_step] on values. *)
From Verif Require Import Py Num ModelKnots ModelCurve ModelSurface ModelInit ModelParam ModelFit ModelIO ModelData ModelRef PyLemmas ProofRef ProofRef2.
Open Scope Z_scope.

Section Ref.
Context {K : Num}.
Notation store := (store K).
Implicit Types s : store.

(** Everything that exists keeps its contents, except problems. *)
Definition gext s s' : Prop :=
  (exists v, h_vec s' = h_vec s ++ v) /\ (exists m, h_mat s' = h_mat s ++ m) /\
  ((length (h_cur s) <= length (h_cur s'))%nat /\ forall k, (k < length (h_cur s))%nat -> cur_at s' k = cur_at s k) /\
  (exists f, h_sur s' = h_sur s ++ f) /\ h_bd s' = h_bd s.
Lemma gext_refl s : gext s s.
Proof. repeat split; try (exists []; rewrite app_nil_r); reflexivity. Qed.
Lemma gext_trans s s' s'' : gext s s' -> gext s' s'' -> gext s s''.
Proof.
  intros ([v V] & [m M] & [C1 C2] & [f F] & D) ([v' V'] & [m' M'] & [C1' C2'] & [f' F'] & D').
  split; [exists (v ++ v'); rewrite V', V, app_assoc; reflexivity|]; split; [exists (m ++ m'); rewrite M', M, app_assoc; reflexivity|].
  split; [split; [lia|]; intros k Hk; rewrite C2', C2 by lia; reflexivity|].
  split; [exists (f ++ f'); rewrite F', F, app_assoc; reflexivity|congruence].
Qed.
Lemma ext_gext s s' : ext (length (h_cur s)) s s' -> gext s s'.
Proof. intros (V & M & C & F & B & D & P); split; [exact V|]; split; [exact M|]; split; [exact C|]; split; [exists []; rewrite app_nil_r; exact F|exact D]. Qed.

(** Contents named by records. *)
Definition bp_read s (b : rproblem) : bproblem K :=
  mkBP (rb_degree b) (option_map (mat_at s) (rb_data b)) (option_map (vec_at s) (rb_start b)) (option_map (vec_at s) (rb_end b))
    (rb_num b) (rb_adaptive b) (option_map (curve_val s) (rb_init b)) (option_map (mat_at s) (rb_param b)) (option_map (curve_val s) (rb_fit b)).
Definition ip_read s (p : rinterior) : iproblem K :=
  mkIP (ri_degree p) (option_map (mat_at s) (ri_data p)) (ri_num p) (option_map (bd_val s) (ri_top p)) (option_map (bd_val s) (ri_bottom p))
    (option_map (surf_val s) (ri_init p)) (option_map (mat_at s) (ri_param p)) (option_map (surf_val s) (ri_fit p)).

Lemma gext_vec s s' a : gext s s' -> (a < length (h_vec s))%nat -> vec_at s' a = vec_at s a.
Proof. intros ([v V] & _) H; exact (vec_app _ _ _ _ V H). Qed.
Lemma gext_mat s s' a : gext s s' -> (a < length (h_mat s))%nat -> mat_at s' a = mat_at s a.
Proof. intros (_ & [m M] & _) H; exact (mat_app _ _ _ _ M H). Qed.
Lemma gext_cur s s' k : gext s s' -> (k < length (h_cur s))%nat -> cur_at s' k = cur_at s k.
Proof. intros (_ & _ & [_ C] & _); apply C. Qed.
Lemma gext_curve s s' k : wf s -> gext s s' -> (k < length (h_cur s))%nat -> curve_val s' k = curve_val s k.
Proof.
  intros W E Hk; apply curve_val_of; [apply wf_cur; assumption|apply gext_cur; assumption|intros a H; apply gext_vec; assumption|intros a H; apply gext_mat; assumption].
Qed.
Lemma gext_sur s s' k : gext s s' -> (k < length (h_sur s))%nat -> sur_at s' k = sur_at s k.
Proof. intros (_ & _ & _ & [f F] & _) H; unfold sur_at; rewrite F, app_nth1 by exact H; reflexivity. Qed.
Lemma gext_surf s s' k : wf s -> gext s s' -> (k < length (h_sur s))%nat -> surf_val s' k = surf_val s k.
Proof.
  intros W E Hk; destruct (proj1 (proj2 W) (sur_at s k) (nth_In _ _ Hk)) as (A & B & C).
  unfold surf_val; rewrite (gext_sur s s' k E Hk), (gext_mat s s' _ E A), (gext_vec s s' _ E B), (gext_vec s s' _ E C); reflexivity.
Qed.
Lemma opt_ext {A B} (l : list A) (f g : nat -> B) o : inrng l o -> (forall a, (a < length l)%nat -> f a = g a) -> option_map f o = option_map g o.
Proof. intros H E; destruct o as [a|]; cbn [option_map inrng] in *; [rewrite E by exact H|]; reflexivity. Qed.
Lemma gext_bp s s' b : wf s -> gext s s' -> bp_wf s b -> bp_read s' b = bp_read s b.
Proof.
  intros W E (H1 & H2 & H3 & H4 & H5 & H6); unfold bp_read; f_equal; (eapply opt_ext; [eassumption|]); intros a Ha;
    [apply gext_mat|apply gext_vec|apply gext_vec|apply gext_curve|apply gext_mat|apply gext_curve]; assumption.
Qed.
Lemma gext_bd s s' d : wf s -> gext s s' -> (d < length (h_bd s))%nat -> bd_val s' d = bd_val s d.
Proof.
  intros W E Hd; destruct (proj1 (proj2 (proj2 (proj2 W))) (bd_at s d) (nth_In _ _ Hd)) as (H1 & H2); unfold bd_val.
  assert (B : bd_at s' d = bd_at s d) by (unfold bd_at; destruct E as (_ & _ & _ & _ & ->); reflexivity); rewrite B.
  f_equal; (eapply opt_ext; [eassumption|]); intros a Ha; [apply gext_mat|apply gext_curve]; assumption.
Qed.
Lemma gext_ip s s' p : wf s -> gext s s' -> ip_wf s p -> ip_read s' p = ip_read s p.
Proof.
  intros W E (H1 & H2 & H3 & H4 & H5 & H6); unfold ip_read; f_equal; (eapply opt_ext; [eassumption|]); intros a Ha;
    [apply gext_mat|apply gext_bd|apply gext_bd|apply gext_surf|apply gext_mat|apply gext_surf]; assumption.
Qed.

(** ** A request to problem [i] *)
Definition bframe i s s' : Prop :=
  gext s s' /\ length (h_bp s') = length (h_bp s) /\ (forall j, j <> i -> bp_at s' j = bp_at s j) /\ h_ip s' = h_ip s /\ h_sur s' = h_sur s.
Lemma bframe_trans i s s' s'' : bframe i s s' -> bframe i s' s'' -> bframe i s s''.
Proof.
  intros (G & L & B & P & F) (G' & L' & B' & P' & F'); split; [exact (gext_trans _ _ _ G G')|]; split; [congruence|].
  split; [intros j Hj; rewrite B', B by exact Hj; reflexivity|split; congruence].
Qed.
Lemma bframe_refl i s : bframe i s s.
Proof. split; [apply gext_refl|]; repeat split. Qed.
Lemma ext_bframe i s s' : ext (length (h_cur s)) s s' -> bframe i s s' /\ bp_at s' i = bp_at s i.
Proof.
  intros E; pose proof E as (_ & _ & _ & F & B & D & P); unfold bframe, bp_at; rewrite B; split; [|reflexivity].
  split; [apply ext_gext; exact E|]; repeat split; assumption.
Qed.

(** Curves and arrays the problem has acquired. *)
Definition new_curve s s' k : Prop :=
  (length (h_cur s) <= k < length (h_cur s'))%nat /\ forall a, rc_ctrl (cur_at s' k) = Some a -> (length (h_mat s) <= a)%nat.
Definition new_knots s s' k : Prop := forall a, rc_kv (cur_at s' k) = Some a -> (length (h_vec s) <= a)%nat.
Definition made i s s' : Prop :=
  let b := bp_at s i in let b' := bp_at s' i in
  (rb_init b' = rb_init b \/ exists k, rb_init b' = Some k /\ new_curve s s' k /\ new_knots s s' k) /\
  (rb_fit b' = rb_fit b \/ exists k, rb_fit b' = Some k /\ new_curve s s' k /\ rb_init b' <> Some k /\
     (new_knots s s' k \/ exists j, rb_init b = Some j /\ rc_kv (cur_at s' k) = rc_kv (cur_at s j))) /\
  (rb_param b' = rb_param b \/ exists a, rb_param b' = Some a /\ (length (h_mat s) <= a)%nat).
(** On success what the method makes is new. *)
Definition fresh_init i s s' : Prop := exists k, rb_init (bp_at s' i) = Some k /\ new_curve s s' k /\ new_knots s s' k.
Definition fresh_fit i s s' : Prop := exists k, rb_fit (bp_at s' i) = Some k /\ new_curve s s' k.
Definition fresh_param i s s' : Prop := exists a, rb_param (bp_at s' i) = Some a /\ (length (h_mat s) <= a)%nat.
Definition kept i s s' : Prop :=
  let b := bp_at s i in let b' := bp_at s' i in rb_data b' = rb_data b /\ rb_start b' = rb_start b /\ rb_end b' = rb_end b.
Definition Q i s s' : Prop := made i s s' /\ kept i s s'.
Lemma Q_refl i s : Q i s s.
Proof. split; [split; [|split]; left; reflexivity|repeat split]. Qed.
Lemma Q_same i s s' : bp_at s' i = bp_at s i -> Q i s s'.
Proof. intros E; unfold Q, made, kept; rewrite E; repeat split; left; reflexivity. Qed.
Lemma new_curve_l s s1 s2 k : gext s s1 -> gext s1 s2 -> (k < length (h_cur s1))%nat -> new_curve s s1 k -> new_curve s s2 k.
Proof.
  intros G G' Hk [L H]; split; [destruct G' as (_ & _ & [L' _] & _); lia|rewrite (gext_cur s1 s2 k G' Hk); exact H].
Qed.
Lemma new_curve_r s s1 s2 k : gext s s1 -> new_curve s1 s2 k -> new_curve s s2 k.
Proof.
  intros (_ & [m M] & [L _] & _) [L1 H]; split; [lia|intros a Ha; specialize (H a Ha); rewrite M, app_length in H; lia].
Qed.
Lemma new_knots_l s s1 s2 k : gext s1 s2 -> (k < length (h_cur s1))%nat -> new_knots s s1 k -> new_knots s s2 k.
Proof. intros G' Hk H; unfold new_knots; rewrite (gext_cur s1 s2 k G' Hk); exact H. Qed.
Lemma new_knots_r s s1 s2 k : gext s s1 -> new_knots s1 s2 k -> new_knots s s2 k.
Proof. intros ([v V] & _) H a Ha; specialize (H a Ha); rewrite V, app_length in H; lia. Qed.
Lemma wf_bp s i : wf s -> bp_wf s (bp_at s i).
Proof.
  intros W; destruct (Nat.lt_ge_cases i (length (h_bp s))) as [H|H]; [apply (proj1 (proj2 (proj2 W))), nth_In; exact H|].
  unfold bp_at; rewrite nth_overflow by exact H; repeat split.
Qed.
Lemma wf_ip s i : wf s -> ip_wf s (ip_at s i).
Proof.
  intros W; destruct (Nat.lt_ge_cases i (length (h_ip s))) as [H|H]; [apply (proj2 (proj2 (proj2 (proj2 W)))), nth_In; exact H|].
  unfold ip_at; rewrite nth_overflow by exact H; repeat split.
Qed.
Lemma Q_trans i s s1 s2 : wf s -> wf s1 -> bframe i s s1 -> bframe i s1 s2 -> Q i s s1 -> Q i s1 s2 -> Q i s s2.
Proof.
  intros W W1 (G & _) (G' & _) [(I1 & F1 & P1) (D1 & S1 & T1)] [(I2 & F2 & P2) (D2 & S2 & T2)].
  destruct (wf_bp s i W) as (_ & _ & _ & Wi & _ & _).
  split; [|unfold kept in *; repeat split; congruence].
  split; [|split].
  - destruct I2 as [I2|(k & I2 & N & V)].
    + destruct I1 as [I1|(k & I1 & N & V)]; [left; congruence|right; exists k; split; [congruence|]].
      split; [eapply new_curve_l; eauto; apply N|eapply new_knots_l; eauto; apply N].
    + right; exists k; split; [exact I2|]; split; [eapply new_curve_r; eauto|eapply new_knots_r; eauto].
  - destruct F2 as [F2|(k & F2 & N & U & V)].
    + destruct F1 as [F1|(k & F1 & N & U & V)]; [left; congruence|right; exists k; split; [congruence|]].
      split; [eapply new_curve_l; eauto; apply N|].
      split; [destruct I2 as [I2|(j & I2 & [[L _] _] & _)]; [congruence|rewrite I2; intros E; injection E as ->; destruct N as [[_ N] _]; lia]|].
      destruct V as [V|(j & J & E)]; [left; eapply new_knots_l; eauto; apply N|right; exists j; split; [exact J|]].
      rewrite (gext_cur s1 s2 k G') by apply N; exact E.
    + right; exists k; split; [exact F2|]; split; [eapply new_curve_r; eauto|]; split; [exact U|].
      destruct V as [V|(j & J & E)]; [left; eapply new_knots_r; eauto|].
      destruct I1 as [I1|(k1 & I1 & N1 & V1)].
      * right; exists j; split; [congruence|]; rewrite E; f_equal; apply gext_cur; [exact G|].
        rewrite <- I1, J in Wi; exact Wi.
      * left; intros a Ha; rewrite E in Ha; apply V1; congruence.
  - destruct P2 as [P2|(a & P2 & N)].
    + destruct P1 as [P1|(a & P1 & N)]; [left; congruence|right; exists a; split; [congruence|exact N]].
    + right; exists a; split; [exact P2|]; destruct G as (_ & [m M] & _); rewrite M, app_length in N; lia.
Qed.

Definition osim i (m : rm unit) s (out : bproblem K * res unit) (R : store -> res unit -> Prop) : Prop :=
  wf (fst (m s)) /\ bframe i s (fst (m s)) /\ bp_val (fst (m s)) i = fst out /\ snd (m s) = snd out /\ R (fst (m s)) (snd (m s)).
Definition QR i s : store -> res unit -> Prop := fun s' _ => Q i s s'.
Lemma osim_then i m k s out f (R R' : store -> res unit -> Prop) : osim i m s out R -> (forall s' r, r <> Ok tt -> R s' r -> R' s' r) ->
  (forall s', wf s' -> bframe i s s' -> bp_val s' i = fst out -> snd out = Ok tt -> R s' (Ok tt) -> osim i k s' (f (fst out)) R') ->
  osim i (rbind m (fun _ => k)) s (andthen out f) R'.
Proof.
  intros (W & B & V & O & HQ) HR H; unfold osim, rbind in *; destruct (m s) as [s' [[]|e|]], out as [b [[]|e'|]]; cbn [fst snd andthen] in *; try discriminate; auto.
  - destruct (H s' W B V eq_refl HQ) as (W' & B' & V' & O' & Q'); split; [exact W'|]; split; [exact (bframe_trans _ _ _ _ B B')|auto].
  - split; [exact W|]; split; [exact B|]; split; [exact V|]; split; [exact O|apply HR; [discriminate|exact HQ]].
  - split; [exact W|]; split; [exact B|]; split; [exact V|]; split; [exact O|apply HR; [discriminate|exact HQ]].
Qed.
Lemma osim_more i m s out (R R' : store -> res unit -> Prop) : osim i m s out R -> (forall s' r, wf s' -> bframe i s s' -> R s' r -> R' s' r) -> osim i m s out R'.
Proof. intros (A & B & C & D & E) H; split; [exact A|]; split; [exact B|]; split; [exact C|]; split; [exact D|exact (H _ _ A B E)]. Qed.
(** A computation on curves in front. *)
Lemma osim_curve {A B} i (m : rm A) (k : A -> rm unit) s (v : res B) (f : B -> bproblem K * res unit) R (R' : store -> res unit -> Prop) : wf s ->
  (forall s' r, r <> Ok tt -> bp_at s' i = bp_at s i -> R' s' r) ->
  sim (length (h_cur s)) m s v R ->
  (forall s' a b, wf s' -> bframe i s s' -> bp_at s' i = bp_at s i -> bp_val s' i = bp_val s i -> R s' a b -> v = Ok b ->
     osim i (k a) s' (f b) R') ->
  osim i (rbind m k) s (match v with Ok b => f b | Err e => (bp_val s i, Err e) | Diverge => (bp_val s i, Diverge) end) R'.
Proof.
  intros W HR (W' & E & H) HK; unfold osim, rbind in *; destruct (ext_bframe i _ _ E) as [B' P'].
  assert (V' : bp_val (fst (m s)) i = bp_val s i).
  { change (bp_read (fst (m s)) (bp_at (fst (m s)) i) = bp_read s (bp_at s i)); rewrite P'; apply gext_bp; [exact W|apply B'|apply wf_bp; exact W]. }
  destruct (m s) as [s' [a|e|]], v as [b|e'|]; cbn [fst snd] in *; try contradiction.
  - destruct (HK s' a b W' B' P' V' H eq_refl) as (W2 & B2 & V2 & O2 & Q2); split; [exact W2|]; split; [exact (bframe_trans _ _ _ _ B' B2)|auto].
  - subst e'; split; [exact W'|]; split; [exact B'|]; split; [exact V'|]; split; [reflexivity|apply HR; [discriminate|exact P']].
  - split; [exact W'|]; split; [exact B'|]; split; [exact V'|]; split; [reflexivity|apply HR; [discriminate|exact P']].
Qed.
Lemma osim_pure {A} i (v : res A) (k : A -> rm unit) s (f : A -> bproblem K * res unit) (R : store -> res unit -> Prop) : wf s ->
  (forall r, r <> Ok tt -> R s r) -> (forall a, v = Ok a -> osim i (k a) s (f a) R) ->
  osim i (rbind (rpure v) k) s (match v with Ok b => f b | Err e => (bp_val s i, Err e) | Diverge => (bp_val s i, Diverge) end) R.
Proof.
  intros W HR HK; destruct v as [a|e|]; [exact (HK a eq_refl)| |]; (split; [exact W|]; split; [apply bframe_refl|]; split; [reflexivity|]; split; [reflexivity|apply HR; discriminate]).
Qed.
Lemma osim_read {A} i (g : store -> A) (k : A -> rm unit) s out R : osim i (k (g s)) s out R -> osim i (rbind (rread g) k) s out R.
Proof. exact (fun H => H). Qed.
Lemma osim_put i b s v (R : store -> res unit -> Prop) : wf s -> (i < length (h_bp s))%nat -> bp_wf s b -> bp_read s b = v ->
  (forall s', h_vec s' = h_vec s -> h_mat s' = h_mat s -> h_cur s' = h_cur s -> bp_at s' i = b -> R s' (Ok tt)) -> osim i (put_bp i b) s (v, Ok tt) R.
Proof.
  intros W Hi Hb Hv HR; unfold osim, put_bp; cbn [fst snd].
  split; [|split; [|split; [|split; [reflexivity|]]]].
  - apply (wf_step s); auto; [unfold grown; cbn [h_vec h_mat h_cur h_sur h_bd]; lia|].
    cbn [h_bp]; intros x Hx; apply put_in in Hx; destruct Hx as [->|Hx]; [right; exact Hb|left; exact Hx].
  - split; [repeat split; try (exists []; cbn [h_vec h_mat h_sur]; rewrite app_nil_r); reflexivity|].
    split; [cbn [h_bp]; apply put_length|]; split; [intros j Hj; unfold bp_at; cbn [h_bp]; apply put_other; congruence|split; reflexivity].
  - rewrite <- Hv; unfold bp_val, bp_at; cbn [h_bp]; rewrite put_same by exact Hi; reflexivity.
  - apply HR; try reflexivity; unfold bp_at; cbn [h_bp]; apply put_same; exact Hi.
Qed.
Lemma bframe_len i s s' : bframe i s s' -> length (h_bp s') = length (h_bp s).
Proof. intros (_ & L & _); exact L. Qed.
Lemma cur_eq s s' k : h_cur s' = h_cur s -> cur_at s' k = cur_at s k.
Proof. intros E; unfold cur_at; rewrite E; reflexivity. Qed.

(** ** The requests *)
(** Nothing but plain values and the parameterized data changes. *)
Definition same_curves i s s' : Prop := rb_init (bp_at s' i) = rb_init (bp_at s i) /\ rb_fit (bp_at s' i) = rb_fit (bp_at s i).
Definition QS i s : store -> res unit -> Prop := fun s' r => QR i s s' r /\ same_curves i s s'.
Lemma QS_refl i s r : QS i s s r.
Proof. split; [apply Q_refl|split; reflexivity]. Qed.
Lemma osim_scalar i s f : wf s -> (i < length (h_bp s))%nat ->
  (forall b : bproblem K, exists d n a, snd (f b) = Ok tt -> fst (f b) = mkBP d (bp_data b) (bp_start b) (bp_end b) n a (bp_init b) (bp_param b) (bp_fit b)) ->
  (forall b : bproblem K, snd (f b) <> Ok tt -> fst (f b) = b) ->
  osim i (r_scalar i f) s (f (bp_val s i)) (QS i s).
Proof.
  intros W Hi Hf Hn; unfold r_scalar; apply osim_read, osim_read; destruct (Hf (bp_val s i)) as (d & n & a & E); specialize (Hn (bp_val s i)).
  destruct (f (bp_val s i)) as [b [[]|e|]] eqn:Ef; cbn [fst snd] in *.
  - rewrite (E eq_refl); apply osim_put; [exact W|exact Hi|apply (wf_bp s i W)|reflexivity|].
    intros s' V M C B; unfold QS, QR, Q, made, kept, same_curves; rewrite B; repeat split; left; reflexivity.
  - rewrite Hn by discriminate; split; [exact W|]; split; [apply bframe_refl|]; split; [reflexivity|]; split; [reflexivity|apply QS_refl].
  - rewrite Hn by discriminate; split; [exact W|]; split; [apply bframe_refl|]; split; [reflexivity|]; split; [reflexivity|apply QS_refl].
Qed.
Lemma osim_degree i v s : wf s -> (i < length (h_bp s))%nat -> osim i (r_scalar i (fun b => bp_set_degree b v)) s (bp_set_degree (bp_val s i) v) (QS i s).
Proof.
  intros W Hi; apply osim_scalar; [exact W|exact Hi| |]; intros b; unfold bp_set_degree; destruct (check_degree v) as [d|e|]; cbn [bind finish fst snd]; try congruence.
  - exists (Some d), (bp_num b), (bp_adaptive b); reflexivity.
  - exists None, None, false; discriminate.
  - exists None, None, false; discriminate.
Qed.
Lemma osim_num i v s : wf s -> (i < length (h_bp s))%nat -> osim i (r_scalar i (fun b => bp_set_num b v)) s (bp_set_num (bp_val s i) v) (QS i s).
Proof.
  intros W Hi; apply osim_scalar; [exact W|exact Hi| |]; intros b; unfold bp_set_num; destruct (to_int v) as [d|e|]; cbn [bind]; try (match goal with |- context [?x <=? 3] => destruct (x <=? 3) end);
    cbn [finish fst snd]; try congruence; try (exists None, None, false; discriminate).
  exists (bp_degree b), (Some d), (bp_adaptive b); reflexivity.
Qed.
Lemma osim_method i v s : wf s -> (i < length (h_bp s))%nat -> osim i (r_scalar i (fun b => bp_set_method b v)) s (bp_set_method (bp_val s i) v) (QS i s).
Proof.
  intros W Hi; apply osim_scalar; [exact W|exact Hi| |]; intros b; unfold bp_set_method; destruct v; try (exists None, None, false; discriminate); try reflexivity;
    match goal with |- context [if ?c then _ else _] => destruct c end; cbn [finish fst snd]; try congruence; try (exists None, None, false; discriminate).
  eexists (bp_degree b), (bp_num b), _; reflexivity.
Qed.

(** What the array setters store. *)
Lemma keep_mat_sim (x : arg K) d s : wf s -> (match x with AMat a => (a < length (h_mat s))%nat /\ mat_at s a = d | _ => True end) ->
  sim (length (h_cur s)) (keep_mat x d) s (Ok tt) (fun s' a _ => (a < length (h_mat s'))%nat /\ mat_at s' a = d /\
    a = match x with AMat a => a | _ => length (h_mat s) end).
Proof.
  intros W H; destruct x as [a|a|r]; cbn [keep_mat].
  - eapply sim_weaken; [apply sim_mat; exact W|]; cbn beta; intros s' b _ _ _ (A & B & C & _); auto.
  - apply sim_ok; [exact W|]; destruct H; auto.
  - eapply sim_weaken; [apply sim_mat; exact W|]; cbn beta; intros s' b _ _ _ (A & B & C & _); auto.
Qed.
Lemma keep_vec_sim (x : arg K) d s : wf s -> (match x with AVec a => (a < length (h_vec s))%nat /\ vec_at s a = d | _ => True end) ->
  sim (length (h_cur s)) (keep_vec x d) s (Ok tt) (fun s' a _ => (a < length (h_vec s'))%nat /\ vec_at s' a = d /\
    a = match x with AVec a => a | _ => length (h_vec s) end).
Proof.
  intros W H; destruct x as [a|a|r]; cbn [keep_vec].
  - apply sim_ok; [exact W|]; destruct H; auto.
  - eapply sim_weaken; [apply sim_vec; exact W|]; cbn beta; intros s' b _ _ _ (A & B & C & _); auto.
  - eapply sim_weaken; [apply sim_vec; exact W|]; cbn beta; intros s' b _ _ _ (A & B & C & _); auto.
Qed.
Lemma check_data_arr (x : nd K) d : check_data (Ok x) = Ok d -> forall m, x = Nd2 m -> m = d.
Proof. intros H m ->; revert H; unfold check_data; cbn [bind]; destruct (_ || _); [intros H; injection H as <-; reflexivity|discriminate]. Qed.
Lemma check_point_arr (x : nd K) d : check_point (Ok x) = Ok d -> forall m, x = Nd1 m -> m = d.
Proof. intros H m ->; revert H; unfold check_point; cbn [bind]; destruct (_ || _); [intros H; injection H as <-; reflexivity|discriminate]. Qed.

Definition stored_mat (x : arg K) s : nat := match x with AMat a => a | _ => length (h_mat s) end.
Definition stored_vec (x : arg K) s : nat := match x with AVec a => a | _ => length (h_vec s) end.
Lemma osim_data i x s : wf s -> (i < length (h_bp s))%nat -> arg_ok s x = true ->
  osim i (r_set_data i x) s (bp_set_data (bp_val s i) (arg_val s x)) (fun s' r => made i s s' /\
    rb_data (bp_at s' i) = (match r with Ok _ => Some (stored_mat x s) | _ => rb_data (bp_at s i) end) /\
    rb_start (bp_at s' i) = rb_start (bp_at s i) /\ rb_end (bp_at s' i) = rb_end (bp_at s i)).
Proof.
  intros W Hi Hx; unfold r_set_data; apply osim_read; unfold bp_set_data.
  replace (finish _ _) with (match check_data (arg_val s x) with Ok d => (let b := bp_val s i in mkBP (bp_degree b) (Some d) (bp_start b) (bp_end b) (bp_num b) (bp_adaptive b) (bp_init b) (bp_param b) (bp_fit b), Ok tt)
    | Err e => (bp_val s i, Err e) | Diverge => (bp_val s i, Diverge) end) by (destruct (check_data _); reflexivity).
  assert (HR : forall s' r, r <> Ok tt -> bp_at s' i = bp_at s i -> made i s s' /\
    rb_data (bp_at s' i) = (match r with Ok _ => Some (stored_mat x s) | _ => rb_data (bp_at s i) end) /\
    rb_start (bp_at s' i) = rb_start (bp_at s i) /\ rb_end (bp_at s' i) = rb_end (bp_at s i)).
  { intros s' r Hr E; split; [apply (Q_same i s s' E)|]; rewrite E; destruct r as [[]|e|]; [congruence|auto|auto]. }
  apply osim_pure; [exact W|intros r Hr; apply HR; auto|]; intros d Ed.
  assert (Hd : match x with AMat a => (a < length (h_mat s))%nat /\ mat_at s a = d | _ => True end).
  { destruct x as [a|a|r]; [exact I| |exact I]; split; [apply Nat.ltb_lt; exact Hx|]; eapply (check_data_arr (Nd2 (mat_at s a))); [exact Ed|reflexivity]. }
  apply (osim_curve i (keep_mat x d) _ s (Ok tt) (fun _ => _) _ _ W HR (keep_mat_sim x d s W Hd)).
  intros s' a [] W' B' P' V' (La & Ma & Ea) _; apply osim_read; apply osim_put; [exact W'|rewrite (bframe_len _ _ _ B'); exact Hi| | |].
  - destruct (wf_bp s' i W') as (H1 & H2 & H3 & H4 & H5 & H6); repeat split; assumption.
  - rewrite <- V'; unfold bp_read, bp_val; cbn [rb_data option_map]; rewrite Ma; reflexivity.
  - intros s2 E1 E2 E3 E4; unfold made; rewrite E4; cbn [rb_init rb_fit rb_param rb_data rb_start rb_end]; rewrite P', Ea.
    split; [|auto]; split; [|split]; left; reflexivity.
Qed.
Lemma osim_start i x s : wf s -> (i < length (h_bp s))%nat -> arg_ok s x = true ->
  osim i (r_set_start i x) s (bp_set_start (bp_val s i) (arg_val s x)) (fun s' r => made i s s' /\
    rb_start (bp_at s' i) = (match r with Ok _ => Some (stored_vec x s) | _ => rb_start (bp_at s i) end) /\
    rb_data (bp_at s' i) = rb_data (bp_at s i) /\ rb_end (bp_at s' i) = rb_end (bp_at s i)).
Proof.
  intros W Hi Hx; unfold r_set_start; apply osim_read; unfold bp_set_start.
  replace (finish _ _) with (match check_point (arg_val s x) with Ok d => (let b := bp_val s i in mkBP (bp_degree b) (bp_data b) (Some d) (bp_end b) (bp_num b) (bp_adaptive b) (bp_init b) (bp_param b) (bp_fit b), Ok tt)
    | Err e => (bp_val s i, Err e) | Diverge => (bp_val s i, Diverge) end) by (destruct (check_point _); reflexivity).
  assert (HR : forall s' r, r <> Ok tt -> bp_at s' i = bp_at s i -> made i s s' /\
    rb_start (bp_at s' i) = (match r with Ok _ => Some (stored_vec x s) | _ => rb_start (bp_at s i) end) /\
    rb_data (bp_at s' i) = rb_data (bp_at s i) /\ rb_end (bp_at s' i) = rb_end (bp_at s i)).
  { intros s' r Hr E; split; [apply (Q_same i s s' E)|]; rewrite E; destruct r as [[]|e|]; [congruence|auto|auto]. }
  apply osim_pure; [exact W|intros r Hr; apply HR; auto|]; intros d Ed.
  assert (Hd : match x with AVec a => (a < length (h_vec s))%nat /\ vec_at s a = d | _ => True end).
  { destruct x as [a|a|r]; [|exact I|exact I]; split; [apply Nat.ltb_lt; exact Hx|]; eapply (check_point_arr (Nd1 (vec_at s a))); [exact Ed|reflexivity]. }
  apply (osim_curve i (keep_vec x d) _ s (Ok tt) (fun _ => _) _ _ W HR (keep_vec_sim x d s W Hd)).
  intros s' a [] W' B' P' V' (La & Ma & Ea) _; apply osim_read; apply osim_put; [exact W'|rewrite (bframe_len _ _ _ B'); exact Hi| | |].
  - destruct (wf_bp s' i W') as (H1 & H2 & H3 & H4 & H5 & H6); repeat split; assumption.
  - rewrite <- V'; unfold bp_read, bp_val; cbn [rb_start option_map]; rewrite Ma; reflexivity.
  - intros s2 E1 E2 E3 E4; unfold made; rewrite E4; cbn [rb_init rb_fit rb_param rb_data rb_start rb_end]; rewrite P', Ea.
    split; [|auto]; split; [|split]; left; reflexivity.
Qed.
Lemma osim_end i x s : wf s -> (i < length (h_bp s))%nat -> arg_ok s x = true ->
  osim i (r_set_end i x) s (bp_set_end (bp_val s i) (arg_val s x)) (fun s' r => made i s s' /\
    rb_end (bp_at s' i) = (match r with Ok _ => Some (stored_vec x s) | _ => rb_end (bp_at s i) end) /\
    rb_data (bp_at s' i) = rb_data (bp_at s i) /\ rb_start (bp_at s' i) = rb_start (bp_at s i)).
Proof.
  intros W Hi Hx; unfold r_set_end; apply osim_read; unfold bp_set_end.
  replace (finish _ _) with (match check_point (arg_val s x) with Ok d => (let b := bp_val s i in mkBP (bp_degree b) (bp_data b) (bp_start b) (Some d) (bp_num b) (bp_adaptive b) (bp_init b) (bp_param b) (bp_fit b), Ok tt)
    | Err e => (bp_val s i, Err e) | Diverge => (bp_val s i, Diverge) end) by (destruct (check_point _); reflexivity).
  assert (HR : forall s' r, r <> Ok tt -> bp_at s' i = bp_at s i -> made i s s' /\
    rb_end (bp_at s' i) = (match r with Ok _ => Some (stored_vec x s) | _ => rb_end (bp_at s i) end) /\
    rb_data (bp_at s' i) = rb_data (bp_at s i) /\ rb_start (bp_at s' i) = rb_start (bp_at s i)).
  { intros s' r Hr E; split; [apply (Q_same i s s' E)|]; rewrite E; destruct r as [[]|e|]; [congruence|auto|auto]. }
  apply osim_pure; [exact W|intros r Hr; apply HR; auto|]; intros d Ed.
  assert (Hd : match x with AVec a => (a < length (h_vec s))%nat /\ vec_at s a = d | _ => True end).
  { destruct x as [a|a|r]; [|exact I|exact I]; split; [apply Nat.ltb_lt; exact Hx|]; eapply (check_point_arr (Nd1 (vec_at s a))); [exact Ed|reflexivity]. }
  apply (osim_curve i (keep_vec x d) _ s (Ok tt) (fun _ => _) _ _ W HR (keep_vec_sim x d s W Hd)).
  intros s' a [] W' B' P' V' (La & Ma & Ea) _; apply osim_read; apply osim_put; [exact W'|rewrite (bframe_len _ _ _ B'); exact Hi| | |].
  - destruct (wf_bp s' i W') as (H1 & H2 & H3 & H4 & H5 & H6); repeat split; assumption.
  - rewrite <- V'; unfold bp_read, bp_val; cbn [rb_end option_map]; rewrite Ma; reflexivity.
  - intros s2 E1 E2 E3 E4; unfold made; rewrite E4; cbn [rb_init rb_fit rb_param rb_data rb_start rb_end]; rewrite P', Ea.
    split; [|auto]; split; [|split]; left; reflexivity.
Qed.

(** ** The initial curve *)
Lemma QR_same i s s' r : r <> Ok tt -> bp_at s' i = bp_at s i -> QR i s s' r.
Proof. intros _ E; apply Q_same; exact E. Qed.
Lemma osim_init i s : wf s -> (i < length (h_bp s))%nat -> osim i (r_set_init i) s (bp_set_init working_class (bp_val s i))
  (fun s' r => QR i s s' r /\ (r = Ok tt -> fresh_init i s s')).
Proof.
  intros W Hi; unfold r_set_init; apply osim_read; unfold bp_set_init.
  set (v := (if bp_adaptive _ then _ else _) : res (curve_obj K)).
  replace (finish _ _) with (match v with Ok d => (let b := bp_val s i in mkBP (bp_degree b) (bp_data b) (bp_start b) (bp_end b) (bp_num b) (bp_adaptive b) (Some d) (bp_param b) (bp_fit b), Ok tt)
    | Err e => (bp_val s i, Err e) | Diverge => (bp_val s i, Diverge) end) by (destruct v; reflexivity).
  eapply osim_curve with (R := fun s' k c => curve_val s' k = c /\ (length (h_cur s) <= k < length (h_cur s'))%nat /\
       (forall a, rc_ctrl (cur_at s' k) = Some a -> (length (h_mat s) <= a)%nat) /\ (forall a, rc_kv (cur_at s' k) = Some a -> (length (h_vec s) <= a)%nat)); [exact W|intros s' r Hr E; split; [apply QR_same; assumption|congruence]| |].
  { unfold v; destruct (bp_adaptive (bp_val s i)); [destruct (bp_degree (bp_val s i)); [|apply sim_err; exact W]|]; apply sim_initialize; (exact W || lia). }
  intros s' k c W' B' P' V' (X & Lk & Nc & Nk) _; apply osim_read; apply osim_put; [exact W'|rewrite (bframe_len _ _ _ B'); exact Hi| | |].
  - destruct (wf_bp s' i W') as (H1 & H2 & H3 & H4 & H5 & H6); repeat split; try assumption; cbn [inrng rb_init]; lia.
  - rewrite <- V'; unfold bp_read, bp_val; cbn [rb_init option_map]; rewrite X; reflexivity.
  - intros s2 E1 E2 E3 E4; 
    assert (Fr : exists x, Some k = Some x /\ new_curve s s2 x /\ new_knots s s2 x) by (exists k; split; [reflexivity|]; unfold new_curve, new_knots; rewrite E3, (cur_eq _ _ _ E3); auto).
    unfold QR, Q, made, kept, fresh_init; rewrite E4; cbn [rb_init rb_fit rb_param rb_data rb_start rb_end]; rewrite P'.
    split; [|intros _; exact Fr]; split; [|auto]; split; [right; exact Fr|split; left; reflexivity].
Qed.

(** ** Parameterization and fit *)
Lemma QS_same i s s' r : r <> Ok tt -> bp_at s' i = bp_at s i -> QS i s s' r.
Proof. intros _ E; split; [apply Q_same; exact E|unfold same_curves; rewrite E; split; reflexivity]. Qed.
Lemma osim_store i k s : wf s -> (i < length (h_bp s))%nat ->
  osim i (r_store_param i k) s (finish (bp_val s i) (let* d := parameterize_curve_opt working_class (option_map (curve_val s) k) (bp_data (bp_val s i)) in
    let b := bp_val s i in Ok (mkBP (bp_degree b) (bp_data b) (bp_start b) (bp_end b) (bp_num b) (bp_adaptive b) (bp_init b) (Some d) (bp_fit b)))) (fun s' r => QS i s s' r /\ (r = Ok tt -> fresh_param i s s')).
Proof.
  intros W Hi; unfold r_store_param; apply osim_read, osim_read.
  set (v := parameterize_curve_opt _ _ _).
  replace (finish _ _) with (match v with Ok d => (let b := bp_val s i in mkBP (bp_degree b) (bp_data b) (bp_start b) (bp_end b) (bp_num b) (bp_adaptive b) (bp_init b) (Some d) (bp_fit b), Ok tt)
    | Err e => (bp_val s i, Err e) | Diverge => (bp_val s i, Diverge) end) by (destruct v; reflexivity).
  apply osim_pure; [exact W|intros r Hr; split; [apply QS_refl|congruence]|]; intros d Ed.
  apply (osim_curve i (new_mat d) _ s (Ok tt) (fun _ => _) _ _ W (fun s' r Hr E => conj (QS_same i s s' r Hr E) (fun O => match Hr O return _ with end)) (sim_mat _ d s W)).
  intros s' a [] W' B' P' V' (Ha & Ma & La & _) _; apply osim_read; apply osim_put; [exact W'|rewrite (bframe_len _ _ _ B'); exact Hi| | |].
  - destruct (wf_bp s' i W') as (H1 & H2 & H3 & H4 & H5 & H6); repeat split; assumption.
  - rewrite <- V'; unfold bp_read, bp_val; cbn [rb_param option_map]; rewrite Ma; reflexivity.
  - intros s2 E1 E2 E3 E4; unfold QS, QR, Q, made, kept, same_curves, fresh_param; rewrite E4; cbn [rb_init rb_fit rb_param rb_data rb_start rb_end]; rewrite P'.
    split; [|intros _; exists a; split; [reflexivity|lia]]; split; [|auto]; split; [|auto]; split; [left; reflexivity|split; [left; reflexivity|right]]; exists a; split; [reflexivity|lia].
Qed.
Definition st (b : bproblem K) (c : option (curve_obj K)) : bproblem K * res unit :=
  finish b (let* d := parameterize_curve_opt working_class c (bp_data b) in
    Ok (mkBP (bp_degree b) (bp_data b) (bp_start b) (bp_end b) (bp_num b) (bp_adaptive b) (bp_init b) (Some d) (bp_fit b))).
Lemma param_eq b : (forall c, bp_fit b = Some c -> bp_parameterize working_class b = st b (Some c)) /\
  (forall c, bp_fit b = None -> bp_init b = Some c -> bp_parameterize working_class b = st b (Some c)) /\
  (bp_fit b = None -> bp_init b = None -> bp_parameterize working_class b = andthen (bp_set_init working_class b) (fun b => st b (bp_init b))).
Proof.
  destruct b as [d dt st' en n a ini par fit]; unfold bp_parameterize; cbn [bp_fit bp_init]; split; [|split].
  - intros c ->; destruct ini; reflexivity.
  - intros c -> ->; reflexivity.
  - intros -> ->; reflexivity.
Qed.
Lemma fresh_param_r i s s1 s2 : gext s s1 -> fresh_param i s1 s2 -> fresh_param i s s2.
Proof. intros (_ & [m M] & _) (a & E & L); exists a; split; [exact E|rewrite M, app_length in L; lia]. Qed.
Lemma fresh_fit_r i s s1 s2 : gext s s1 -> fresh_fit i s1 s2 -> fresh_fit i s s2.
Proof. intros G (k & E & N); exists k; split; [exact E|exact (new_curve_r _ _ _ _ G N)]. Qed.
Lemma osim_param i s : wf s -> (i < length (h_bp s))%nat ->
  osim i (r_parameterize i) s (bp_parameterize working_class (bp_val s i)) (fun s' r => QR i s s' r /\ (rb_fit (bp_at s i) <> None -> same_curves i s s') /\ (r = Ok tt -> fresh_param i s s')).
Proof.
  intros W Hi; unfold r_parameterize; apply osim_read; destruct (param_eq (bp_val s i)) as (E1 & E2 & E3).
  assert (Ii : bp_init (bp_val s i) = option_map (curve_val s) (rb_init (bp_at s i))) by reflexivity.
  assert (Fi : bp_fit (bp_val s i) = option_map (curve_val s) (rb_fit (bp_at s i))) by reflexivity.
  destruct (rb_init (bp_at s i)) as [k|], (rb_fit (bp_at s i)) as [f|]; cbn [option_map] in *.
  - rewrite (E1 _ Fi); eapply osim_more; [apply (osim_store i (Some f)); assumption|]; intros s' r _ _ [[A B] C]; auto.
  - rewrite (E2 _ Fi Ii); eapply osim_more; [apply (osim_store i (Some k)); assumption|]; intros s' r _ _ [[A B] C]; auto.
  - rewrite (E1 _ Fi); eapply osim_more; [apply (osim_store i (Some f)); assumption|]; intros s' r _ _ [[A B] C]; auto.
  - rewrite (E3 Fi Ii); eapply osim_then; [apply osim_init; assumption|cbn beta; intros s' r Hr [A _]; split; [exact A|split; congruence]|].
    intros s' W' B' V' O' [A _]; apply osim_read.
    rewrite <- V'; eapply osim_more; [apply (osim_store i (rb_init (bp_at s' i))); [exact W'|rewrite (bframe_len _ _ _ B'); exact Hi]|].
    intros s2 r W2 B2 [[A2 _] F2]; split; [exact (Q_trans _ _ _ _ W W' B' B2 A A2)|split; [congruence|]].
    intros Hr; exact (fresh_param_r _ _ _ _ (proj1 B') (F2 Hr)).
Qed.
(** The two curves hold one knot array. *)
Definition shared_knots i s : Prop := exists j k a, rb_init (bp_at s i) = Some j /\ rb_fit (bp_at s i) = Some k /\
  rc_kv (cur_at s j) = Some a /\ rc_kv (cur_at s k) = Some a.
Lemma osim_fit sv i s : wf s -> (i < length (h_bp s))%nat -> osim i (r_fit sv i) s (bp_fit_run working_class sv (bp_val s i))
  (fun s' r => QR i s s' r /\ (r = Ok tt -> fresh_fit i s s' /\ fresh_param i s s' /\ (rb_adaptive (bp_at s i) = false -> shared_knots i s'))).
Proof.
  intros W Hi; unfold r_fit; apply osim_read; unfold bp_fit_run.
  eapply osim_then with (R := fun s' r => QR i s s' r /\ rb_adaptive (bp_at s' i) = rb_adaptive (bp_at s i)).
  { assert (Ii : bp_init (bp_val s i) = option_map (curve_val s) (rb_init (bp_at s i))) by reflexivity.
    rewrite Ii; destruct (rb_init (bp_at s i)); cbn [option_map].
    - split; [exact W|]; split; [apply bframe_refl|]; split; [reflexivity|]; split; [reflexivity|split; [apply Q_refl|reflexivity]].
    - pose proof (osim_init i s W Hi) as (A & B & C & D & E); split; [exact A|]; split; [exact B|]; split; [exact C|]; split; [exact D|]; split; [exact (proj1 E)|].
      change (bp_adaptive (bp_val (fst (r_set_init i s)) i) = bp_adaptive (bp_val s i)); rewrite C; unfold bp_set_init, finish.
      match goal with |- context [bind ?m _] => destruct m end; reflexivity. }
  { cbn beta; intros s' r Hr [A _]; split; [exact A|congruence]. }
  intros s1 W1 B1 V1 O1 [A1 D1]; assert (Hi1 : (i < length (h_bp s1))%nat) by (rewrite (bframe_len _ _ _ B1); exact Hi).
  rewrite <- V1; apply osim_more with (R := fun s' r => QR i s1 s' r /\ (r = Ok tt -> fresh_fit i s1 s' /\ fresh_param i s1 s' /\ (rb_adaptive (bp_at s1 i) = false -> shared_knots i s'))).
  2:{ intros s2 r W2 B2 [A2 H2]; split; [exact (Q_trans _ _ _ _ W W1 B1 B2 A1 A2)|].
      intros Hr; destruct (H2 Hr) as (Ha & Hb & Hc); split; [exact (fresh_fit_r _ _ _ _ (proj1 B1) Ha)|split; [exact (fresh_param_r _ _ _ _ (proj1 B1) Hb)|rewrite D1 in Hc; exact Hc]]. }
  clear V1 O1 B1 W Hi A1 D1; apply osim_read, osim_read.
  change (bp_init (bp_val s1 i)) with (option_map (curve_val s1) (rb_init (bp_at s1 i))) at 1.
  pose proof (wf_bp s1 i W1) as Wb; destruct (rb_init (bp_at s1 i)) as [k|] eqn:Ek; cbn [option_map].
  2:{ split; [exact W1|]; split; [apply bframe_refl|]; split; [reflexivity|]; split; [reflexivity|split; [apply Q_refl|discriminate]]. }
  assert (Hk : (k < length (h_cur s1))%nat) by (pose proof (proj1 (proj2 (proj2 (proj2 Wb)))) as X; rewrite Ek in X; exact X).
  change (bp_adaptive (bp_val s1 i)) with (rb_adaptive (bp_at s1 i)); change (bp_num (bp_val s1 i)) with (rb_num (bp_at s1 i)).
  set (v := (if rb_adaptive (bp_at s1 i) then fit_curve_knot_insertion_opt _ _ _ _ _ else _) : res (curve_obj K)).
  set (F := fun c : curve_obj K => match c_kv c, bp_degree (bp_val s1 i) with
    | Some kv, Some d => let b := bp_val s1 i in
        andthen (bp_set_num (mkBP (bp_degree b) (bp_data b) (bp_start b) (bp_end b) (bp_num b) (bp_adaptive b) (bp_init b) (bp_param b) (Some c)) (VInt (zlen kv - d - 1))) (bp_parameterize working_class)
    | _, _ => (bp_val s1 i, Err TypeError) end).
  match goal with |- osim _ _ _ ?x _ => replace x with (match v with Ok c => F c | Err e => (bp_val s1 i, Err e) | Diverge => (bp_val s1 i, Diverge) end) end.
  2:{ destruct v as [c|e|]; cbn [bind]; [|reflexivity|reflexivity]; unfold F; destruct (c_kv c), (bp_degree (bp_val s1 i)); reflexivity. }
  eapply osim_curve with (R := fun s' t c => curve_val s' t = c /\ (length (h_cur s1) <= t < length (h_cur s'))%nat /\ ctrl_from s1 s' t /\
       (rc_kv (cur_at s' t) = rc_kv (cur_at s1 k) \/ rc_kv (cur_at s' t) = None \/ exists a, rc_kv (cur_at s' t) = Some a /\ (length (h_vec s1) <= a)%nat) /\
       (rb_adaptive (bp_at s1 i) = false -> rc_kv (cur_at s' t) = rc_kv (cur_at s1 k) \/ rc_kv (cur_at s' t) = None)); [exact W1|intros s' r Hr E; split; [apply QR_same; assumption|congruence]| |].
  { unfold v; destruct (rb_adaptive (bp_at s1 i)).
    - eapply sim_weaken; [apply sim_fit_insertion_opt; (exact W1 || lia)|]; cbn beta; intros s' t c _ _ (X1 & X2 & X3 & X4); repeat (split; [assumption|]); discriminate.
    - eapply sim_weaken; [apply sim_fit_fixed; (exact W1 || lia)|]; cbn beta; intros s' t c _ _ (X1 & X2 & X3 & [X4|X4]); (split; [exact X1|]; split; [exact X2|]; split; [exact X3|]; split; auto). }
  intros s2 t c W2 B2 P2 V2 (X & Lt & Nc & Nk & Nf) _; apply osim_read; rewrite X; unfold F; clear F.
  change (bp_degree (bp_val s1 i)) with (rb_degree (bp_at s1 i)).
  assert (Hi2 : (i < length (h_bp s2))%nat) by (rewrite (bframe_len _ _ _ B2); exact Hi1).
  assert (Er : osim i (rpure (Err TypeError)) s2 (bp_val s1 i, Err TypeError) (fun s' r => QR i s1 s' r /\ (r = Ok tt -> fresh_fit i s1 s' /\ fresh_param i s1 s' /\ (rb_adaptive (bp_at s1 i) = false -> shared_knots i s')))).
  { split; [exact W2|]; split; [apply bframe_refl|]; split; [exact V2|]; split; [reflexivity|split; [apply Q_same; exact P2|discriminate]]. }
  destruct (c_kv c) as [kv|] eqn:Ekv; [|exact Er]; destruct (rb_degree (bp_at s1 i)) as [d|] eqn:Ed; [|exact Er]; clear Er.
  (* storing the fitted curve *)
  set (b' := mkRP _ _ _ _ _ _ _ _ (Some t)).
  assert (O3 : osim i (put_bp i b') s2 (bp_read s2 b', Ok tt) (fun s' _ => QR i s1 s' (Ok tt) /\ h_cur s' = h_cur s2 /\ bp_at s' i = b')).
  { apply osim_put; [exact W2|exact Hi2| |reflexivity|].
    - pose proof (wf_bp s2 i W2) as Wb2; rewrite P2 in Wb2; destruct Wb2 as (H1 & H2 & H3 & H4 & H5 & H6).
      repeat split; try assumption; [rewrite Ek in H4; exact H4|exact (proj2 Lt)].
    - intros s3 E1 E2 E3 E4; split; [|split; assumption]; unfold QR, Q, made, kept, new_curve, new_knots; rewrite E4; subst b'; cbn [rb_init rb_fit rb_param rb_data rb_start rb_end].
      split; [|auto]; split; [left; symmetry; exact Ek|split; [right|left; reflexivity]]; exists t; split; [reflexivity|]; rewrite E3, (cur_eq _ _ _ E3); split.
      + split; [exact Lt|]; destruct Nc as (a & -> & La); intros a' Ha'; injection Ha' as <-; exact La.
      + split; [intros E; injection E as ->; lia|]; destruct Nk as [Nk|[Nk|(a & Nk & La)]]; [right; exists k; split; [exact Ek|exact Nk]| |]; left; intros a' Ha'; rewrite Nk in Ha'; [discriminate|injection Ha' as <-; exact La]. }
  cbv zeta; match goal with |- context [bp_set_num ?r _] => replace r with (bp_read s2 b') end.
  2:{ rewrite <- V2; subst b'; unfold bp_read, bp_val; rewrite P2, Ek; cbn [rb_fit option_map rb_degree rb_data rb_start rb_end rb_num rb_adaptive rb_init rb_param bp_degree bp_data bp_start bp_end bp_num bp_adaptive bp_init bp_param].
      rewrite X, ?Ed; reflexivity. }
  set (s3 := fst (put_bp i b' s2)) in *.
  assert (O3' := O3); destruct O3' as (W3 & B3 & V3 & _ & (Q3 & C3 & P3)); cbn [fst snd] in V3; fold s3 in W3, B3, V3, Q3, C3, P3.
  assert (Hi3 : (i < length (h_bp s3))%nat) by (rewrite (bframe_len _ _ _ B3); exact Hi2).
  assert (O4 : osim i (rbind (r_scalar i (fun v => bp_set_num v (VInt (zlen kv - d - 1)))) (fun _ => r_parameterize i)) s3
    (andthen (bp_set_num (bp_val s3 i) (VInt (zlen kv - d - 1))) (bp_parameterize working_class)) (fun s' r => QS i s3 s' r /\ (r = Ok tt -> fresh_param i s3 s'))).
  { eapply osim_then; [apply osim_num; assumption|cbn beta; intros s' r Hr A; split; [exact A|congruence]|]; intros s4 W4 B4 V4 O4 [A4 S4]; rewrite <- V4.
    eapply osim_more; [apply osim_param; [exact W4|rewrite (bframe_len _ _ _ B4); exact Hi3]|].
    intros s5 r W5 B5 [A5 [S5 F5]]; split; [split; [exact (Q_trans _ _ _ _ W3 W4 B4 B5 A4 A5)|]|intros Hr; exact (fresh_param_r _ _ _ _ (proj1 B4) (F5 Hr))].
    destruct S4 as [S4 S4']; assert (F4 : rb_fit (bp_at s4 i) <> None) by (rewrite S4', P3; discriminate).
    destruct (S5 F4) as [S5a S5b]; split; congruence. }
  rewrite V3 in O4; destruct O4 as (W4 & B4 & V4 & O4 & ((Q4 & S4a & S4b) & F4)).
  split; [exact W4|]; split; [exact (bframe_trans _ _ _ _ B3 B4)|]; split; [exact V4|]; split; [exact O4|]; split.
  - apply (Q_trans i s1 s3); [exact W1|exact W3|exact (bframe_trans _ _ _ _ B2 B3)|exact B4|exact Q3|exact Q4].
  - assert (B13 := bframe_trans _ _ _ _ B2 B3); intros Hr; split; [|split; [exact (fresh_param_r _ _ _ _ (proj1 B13) (F4 Hr))|]].
    { exists t; split; [etransitivity; [exact S4b|rewrite P3; reflexivity]|]; apply (new_curve_l s1 s3); [exact (proj1 B13)|exact (proj1 B4)|rewrite C3; lia|].
      split; [rewrite C3; exact Lt|]; rewrite (cur_eq _ _ _ C3); destruct Nc as (a & -> & La); intros a' Ha'; injection Ha' as <-; exact La. }
    intros Ha; rewrite P3 in S4a, S4b; unfold b' in S4a, S4b; cbn [rb_init rb_fit] in S4a, S4b.
    assert (Kt : option_map (vec_at s2) (rc_kv (cur_at s2 t)) = Some kv) by (rewrite <- Ekv, <- X; reflexivity).
    destruct (rc_kv (cur_at s2 t)) as [a|] eqn:Ea; [|discriminate]; exists k, t, a.
    split; [exact S4a|]; split; [exact S4b|].
    assert (C34 : forall x, (x < length (h_cur s2))%nat -> cur_at (fst (rbind (r_scalar i (fun v => bp_set_num v (VInt (zlen kv - d - 1)))) (fun _ => r_parameterize i) s3)) x = cur_at s2 x).
    { intros x Hx; rewrite (gext_cur s3 _ x (proj1 B4)) by (rewrite C3; exact Hx); apply cur_eq; exact C3. }
    change (rbind (put_bp i b') (fun _ => rbind (r_scalar i (fun v0 => bp_set_num v0 (VInt (zlen kv - d - 1)))) (fun _ => r_parameterize i)) s2)
      with (rbind (r_scalar i (fun v0 => bp_set_num v0 (VInt (zlen kv - d - 1)))) (fun _ => r_parameterize i) s3).
    rewrite !C34 by lia; split; [|exact Ea].
    rewrite (gext_cur s1 s2 k (proj1 B2) Hk); destruct (Nf Ha) as [E|E]; congruence.
Qed.
End Ref.
