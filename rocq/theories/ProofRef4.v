(** Requests to interior problems on the store against [ip_step] on values. *)
From Verif Require Import Py Num ModelKnots ModelCurve ModelSurface ModelInit ModelParam ModelFit ModelIO ModelData ModelRef PyLemmas ProofRef ProofRef2 ProofRef3.
Open Scope Z_scope.

Section Ref.
Context {K : Num}.
Notation store := (store K).
Implicit Types s : store.

Definition iframe i s s' : Prop :=
  gext s s' /\ length (h_ip s') = length (h_ip s) /\ (forall j, j <> i -> ip_at s' j = ip_at s j) /\ h_bp s' = h_bp s /\ h_cur s' = h_cur s.
Lemma iframe_trans i s s' s'' : iframe i s s' -> iframe i s' s'' -> iframe i s s''.
Proof.
  intros (G & L & B & P & F) (G' & L' & B' & P' & F'); split; [exact (gext_trans _ _ _ G G')|]; split; [congruence|].
  split; [intros j Hj; rewrite B', B by exact Hj; reflexivity|split; congruence].
Qed.
Lemma iframe_refl i s : iframe i s s.
Proof. split; [apply gext_refl|]; repeat split. Qed.
Lemma iframe_len i s s' : iframe i s s' -> length (h_ip s') = length (h_ip s).
Proof. intros (_ & L & _); exact L. Qed.

Definition isim i (m : rm unit) s (out : iproblem K * res unit) (R : store -> res unit -> Prop) : Prop :=
  wf (fst (m s)) /\ iframe i s (fst (m s)) /\ ip_val (fst (m s)) i = fst out /\ snd (m s) = snd out /\ R (fst (m s)) (snd (m s)).
Lemma isim_then i m k s out f (R R' : store -> res unit -> Prop) : isim i m s out R -> (forall s' r, r <> Ok tt -> R s' r -> R' s' r) ->
  (forall s', wf s' -> iframe i s s' -> ip_val s' i = fst out -> snd out = Ok tt -> R s' (Ok tt) -> isim i k s' (f (fst out)) R') ->
  isim i (rbind m (fun _ => k)) s (andthen out f) R'.
Proof.
  intros (W & B & V & O & HQ) HR H; unfold isim, rbind in *; destruct (m s) as [s' [[]|e|]], out as [b [[]|e'|]]; cbn [fst snd andthen] in *; try discriminate; auto.
  - destruct (H s' W B V eq_refl HQ) as (W' & B' & V' & O' & Q'); split; [exact W'|]; split; [exact (iframe_trans _ _ _ _ B B')|auto].
  - split; [exact W|]; split; [exact B|]; split; [exact V|]; split; [exact O|apply HR; [discriminate|exact HQ]].
  - split; [exact W|]; split; [exact B|]; split; [exact V|]; split; [exact O|apply HR; [discriminate|exact HQ]].
Qed.
Lemma isim_pure {A} i (v : res A) (k : A -> rm unit) s (f : A -> iproblem K * res unit) (R : store -> res unit -> Prop) : wf s ->
  (forall r, r <> Ok tt -> R s r) -> (forall a, v = Ok a -> isim i (k a) s (f a) R) ->
  isim i (rbind (rpure v) k) s (match v with Ok b => f b | Err e => (ip_val s i, Err e) | Diverge => (ip_val s i, Diverge) end) R.
Proof.
  intros W HR HK; destruct v as [a|e|]; [exact (HK a eq_refl)| |]; (split; [exact W|]; split; [apply iframe_refl|]; split; [reflexivity|]; split; [reflexivity|apply HR; discriminate]).
Qed.
Lemma isim_read {A} i (g : store -> A) (k : A -> rm unit) s out R : isim i (k (g s)) s out R -> isim i (rbind (rread g) k) s out R.
Proof. exact (fun H => H). Qed.
Lemma isim_err i s e (R : store -> res unit -> Prop) : wf s -> R s (Err e) -> isim i (rpure (Err e)) s (ip_val s i, Err e) R.
Proof. intros W HR; split; [exact W|]; split; [apply iframe_refl|]; split; [reflexivity|]; split; [reflexivity|exact HR]. Qed.
Lemma isim_put i p s v (R : store -> res unit -> Prop) : wf s -> (i < length (h_ip s))%nat -> ip_wf s p -> ip_read s p = v ->
  (forall s', h_vec s' = h_vec s -> h_mat s' = h_mat s -> h_sur s' = h_sur s -> ip_at s' i = p -> R s' (Ok tt)) -> isim i (put_ip i p) s (v, Ok tt) R.
Proof.
  intros W Hi Hb Hv HR; unfold isim, put_ip; cbn [fst snd].
  split; [|split; [|split; [|split; [reflexivity|]]]].
  - apply (wf_step s); auto; [unfold grown; cbn [h_vec h_mat h_cur h_sur h_bd]; lia|].
    cbn [h_ip]; intros x Hx; apply put_in in Hx; destruct Hx as [->|Hx]; [right; exact Hb|left; exact Hx].
  - split; [repeat split; try (exists []; cbn [h_vec h_mat h_sur]; rewrite app_nil_r); reflexivity|].
    split; [cbn [h_ip]; apply put_length|]; split; [intros j Hj; unfold ip_at; cbn [h_ip]; apply put_other; congruence|split; reflexivity].
  - rewrite <- Hv; unfold ip_val, ip_at; cbn [h_ip]; rewrite put_same by exact Hi; reflexivity.
  - apply HR; try reflexivity; unfold ip_at; cbn [h_ip]; apply put_same; exact Hi.
Qed.
(** New arrays and surfaces. *)
Definition grows i s s' : Prop := wf s' /\ iframe i s s' /\ ip_at s' i = ip_at s i /\ ip_val s' i = ip_val s i.
Lemma grows_of i s s' : wf s -> wf s' -> gext s s' -> h_ip s' = h_ip s -> h_bp s' = h_bp s -> h_cur s' = h_cur s -> grows i s s'.
Proof.
  intros W W' G P B C; assert (E : ip_at s' i = ip_at s i) by (unfold ip_at; rewrite P; reflexivity).
  split; [exact W'|]; split; [split; [exact G|]; unfold ip_at; rewrite P; repeat split; assumption|]; split; [exact E|].
  change (ip_read s' (ip_at s' i) = ip_read s (ip_at s i)); rewrite E; apply gext_ip; [exact W|exact G|apply wf_ip; exact W].
Qed.
Lemma isim_grow {A} i (m : rm A) (k : A -> rm unit) s s' a out R : m s = (s', Ok a) -> iframe i s s' -> isim i (k a) s' out R -> isim i (rbind m k) s out R.
Proof.
  intros E B (W' & B' & H); unfold isim, rbind; rewrite E; split; [exact W'|]; split; [exact (iframe_trans _ _ _ _ B B')|exact H].
Qed.
Lemma grow_mat i s m : wf s -> grows i s (fst (new_mat m s)).
Proof.
  intros W; destruct (sim_mat (length (h_cur s)) m s W) as (W' & E & _); apply grows_of; try reflexivity; [exact W|exact W'|apply ext_gext; exact E].
Qed.
Lemma grow_vec i s m : wf s -> grows i s (fst (new_vec m s)).
Proof.
  intros W; destruct (sim_vec (length (h_cur s)) m s W) as (W' & E & _); apply grows_of; try reflexivity; [exact W|exact W'|apply ext_gext; exact E].
Qed.
Lemma grow_sur i s f : wf s -> sur_wf s f -> grows i s (fst (new_sur f s)).
Proof.
  intros W Hf; apply grows_of; try reflexivity; [exact W| |].
  - apply (wf_step s); auto; [unfold grown, new_sur; cbn [fst h_vec h_mat h_cur h_sur h_bd]; rewrite app_length; lia|].
    intros x Hx; unfold new_sur in Hx; cbn [fst h_sur] in Hx; apply in_app_or in Hx; destruct Hx as [Hx|[<-|[]]]; [left; exact Hx|right; exact Hf].
  - split; [exists []; unfold new_sur; cbn [fst h_vec]; rewrite app_nil_r; reflexivity|].
    split; [exists []; unfold new_sur; cbn [fst h_mat]; rewrite app_nil_r; reflexivity|].
    split; [split; [unfold new_sur; cbn [fst h_cur]; lia|reflexivity]|split; [exists [f]; reflexivity|reflexivity]].
Qed.

(** Surfaces and arrays the problem has acquired.  [bottom_knots]: the knot array
    of the fitted curve of the bottom boundary. *)
Definition bottom_knots s i : option nat :=
  match ri_bottom (ip_at s i) with
  | Some d => match rd_fit (bd_at s d) with Some k => rc_kv (cur_at s k) | None => None end
  | None => None
  end.
Definition new_surf s s' k : Prop := (length (h_sur s) <= k < length (h_sur s'))%nat /\ (length (h_mat s) <= rs_ctrl (sur_at s' k))%nat.
Definition imade i s s' : Prop :=
  let p := ip_at s i in let p' := ip_at s' i in
  (ri_init p' = ri_init p \/ exists k, ri_init p' = Some k /\ new_surf s s' k /\
     (length (h_vec s) <= rs_kv (sur_at s' k))%nat /\ bottom_knots s i = Some (rs_ku (sur_at s' k))) /\
  (ri_fit p' = ri_fit p \/ exists k j, ri_fit p' = Some k /\ ri_init p' = Some j /\ j <> k /\ new_surf s s' k /\
     rs_ku (sur_at s' k) = rs_ku (sur_at s' j) /\ rs_kv (sur_at s' k) = rs_kv (sur_at s' j)) /\
  (ri_param p' = ri_param p \/ exists a, ri_param p' = Some a /\ (length (h_mat s) <= a)%nat).
Definition ikept i s s' : Prop :=
  let p := ip_at s i in let p' := ip_at s' i in ri_data p' = ri_data p /\ ri_top p' = ri_top p /\ ri_bottom p' = ri_bottom p.
Definition IQ i s : store -> res unit -> Prop := fun s' _ => imade i s s' /\ ikept i s s'.
Lemma IQ_same i s s' r : ip_at s' i = ip_at s i -> IQ i s s' r.
Proof. intros E; unfold IQ, imade, ikept; rewrite E; repeat split; left; reflexivity. Qed.
Lemma new_surf_l s s1 s2 k : gext s1 s2 -> new_surf s s1 k -> new_surf s s2 k.
Proof.
  intros G [L H]; pose proof (gext_sur s1 s2 k G) as E; split; [destruct G as (_ & _ & _ & [f F] & _); rewrite F, app_length; lia|rewrite E by lia; exact H].
Qed.
Lemma new_surf_r s s1 s2 k : gext s s1 -> new_surf s1 s2 k -> new_surf s s2 k.
Proof.
  intros (_ & [m M] & _ & [f F] & _) [L H]; rewrite F, app_length in L; rewrite M, app_length in H; split; lia.
Qed.
Lemma bottom_same i s s' : wf s -> iframe i s s' -> ikept i s s' -> bottom_knots s' i = bottom_knots s i.
Proof.
  intros W ((_ & _ & _ & _ & D) & _ & _ & _ & C) (_ & _ & E); unfold bottom_knots; rewrite E; destruct (ri_bottom (ip_at s i)) as [d|]; [|reflexivity].
  unfold bd_at; rewrite D; destruct (rd_fit _); [|reflexivity]; rewrite (cur_eq _ _ _ C); reflexivity.
Qed.
Lemma IQ_trans i s s1 s2 r1 r2 : wf s -> wf s1 -> wf s2 -> iframe i s s1 -> iframe i s1 s2 -> ri_fit (ip_at s1 i) = ri_fit (ip_at s i) \/ ri_init (ip_at s2 i) = ri_init (ip_at s1 i) ->
  IQ i s s1 r1 -> IQ i s1 s2 r2 -> IQ i s s2 r2.
Proof.
  intros W W1 W2 B B' Hor [(I1 & F1 & P1) K1] [(I2 & F2 & P2) K2].
  pose proof (bottom_same i s s1 W B K1) as EB; pose proof B as (G & _); pose proof B' as (G' & _).
  destruct (wf_ip s1 i W1) as (_ & _ & _ & Wi & _ & Wf).
  split; [|unfold ikept in *; destruct K1 as (? & ? & ?), K2 as (? & ? & ?); repeat split; congruence].
  split; [|split].
  - destruct I2 as [I2|(k & I2 & N & V & U)].
    + destruct I1 as [I1|(k & I1 & N & V & U)]; [left; congruence|right; exists k; split; [congruence|]].
      split; [eapply new_surf_l; eauto|]; rewrite (gext_sur s1 s2 k G') by apply N; auto.
    + right; exists k; split; [exact I2|]; split; [eapply new_surf_r; eauto|]; split; [|congruence].
      destruct G as ([v V'] & _); rewrite V', app_length in V; lia.
  - destruct F2 as [F2|(k & j & F2 & J & JK & N & U & V)].
    + destruct F1 as [F1|(k & j & F1 & J & JK & N & U & V)]; [left; congruence|].
      destruct Hor as [Hf|Hi]; [left; congruence|right; exists k, j].
      split; [congruence|]; split; [congruence|]; split; [exact JK|]; split; [eapply new_surf_l; eauto|].
      rewrite (gext_sur s1 s2 k G') by apply N; rewrite (gext_sur s1 s2 j G') by (rewrite J in Wi; exact Wi); auto.
    + right; exists k, j; split; [exact F2|]; split; [exact J|]; split; [exact JK|]; split; [eapply new_surf_r; eauto|auto].
  - destruct P2 as [P2|(a & P2 & N)].
    + destruct P1 as [P1|(a & P1 & N)]; [left; congruence|right; exists a; split; [congruence|exact N]].
    + right; exists a; split; [exact P2|]; destruct G as (_ & [m M] & _); rewrite M, app_length in N; lia.
Qed.

(** ** The requests *)
Lemma isim_scalar i s f : wf s -> (i < length (h_ip s))%nat ->
  (forall b : iproblem K, exists d n, snd (f b) = Ok tt -> fst (f b) = mkIP d (ip_data b) n (ip_top b) (ip_bottom b) (ip_init b) (ip_param b) (ip_fit b)) ->
  (forall b : iproblem K, snd (f b) <> Ok tt -> fst (f b) = b) ->
  isim i (r_iscalar i f) s (f (ip_val s i)) (IQ i s).
Proof.
  intros W Hi Hf Hn; unfold r_iscalar; apply isim_read, isim_read; destruct (Hf (ip_val s i)) as (d & n & E); specialize (Hn (ip_val s i)).
  destruct (f (ip_val s i)) as [b [[]|e|]] eqn:Ef; cbn [fst snd] in *.
  - rewrite (E eq_refl); apply isim_put; [exact W|exact Hi|apply (wf_ip s i W)|reflexivity|].
    intros s' V M C B; unfold IQ, imade, ikept; rewrite B; repeat split; left; reflexivity.
  - rewrite Hn by discriminate; apply isim_err; [exact W|apply IQ_same; reflexivity].
  - rewrite Hn by discriminate; split; [exact W|]; split; [apply iframe_refl|]; split; [reflexivity|]; split; [reflexivity|apply IQ_same; reflexivity].
Qed.
Lemma isim_degree i v s : wf s -> (i < length (h_ip s))%nat -> isim i (r_iscalar i (fun b => ip_set_degree b v)) s (ip_set_degree (ip_val s i) v) (IQ i s).
Proof.
  intros W Hi; apply isim_scalar; [exact W|exact Hi| |]; intros b; unfold ip_set_degree; destruct (check_degree v) as [d|e|]; cbn [bind finish fst snd]; try congruence.
  - exists (Some d), (ip_num b); reflexivity.
  - exists None, None; discriminate.
  - exists None, None; discriminate.
Qed.
Lemma isim_num i v s : wf s -> (i < length (h_ip s))%nat -> isim i (r_iscalar i (fun b => ip_set_num b v)) s (ip_set_num (ip_val s i) v) (IQ i s).
Proof.
  intros W Hi; apply isim_scalar; [exact W|exact Hi| |]; intros b; unfold ip_set_num; destruct (to_int v) as [d|e|]; cbn [bind]; try (match goal with |- context [?x <? 3] => destruct (x <? 3) end);
    cbn [finish fst snd]; try congruence; try (exists None, None; discriminate).
  exists (ip_degree b), (Some d); reflexivity.
Qed.
Lemma isim_data i x s : wf s -> (i < length (h_ip s))%nat -> arg_ok s x = true ->
  isim i (r_set_idata i x) s (ip_set_data (ip_val s i) (arg_val s x)) (fun s' r => imade i s s' /\
    ri_data (ip_at s' i) = (match r with Ok _ => Some (stored_mat x s) | _ => ri_data (ip_at s i) end) /\
    ri_top (ip_at s' i) = ri_top (ip_at s i) /\ ri_bottom (ip_at s' i) = ri_bottom (ip_at s i)).
Proof.
  intros W Hi Hx; unfold r_set_idata; apply isim_read; unfold ip_set_data.
  replace (finish _ _) with (match check_data (arg_val s x) with Ok d => (let b := ip_val s i in mkIP (ip_degree b) (Some d) (ip_num b) (ip_top b) (ip_bottom b) (ip_init b) (ip_param b) (ip_fit b), Ok tt)
    | Err e => (ip_val s i, Err e) | Diverge => (ip_val s i, Diverge) end) by (destruct (check_data _); reflexivity).
  apply isim_pure; [exact W|intros r Hr; split; [apply (IQ_same i s s r eq_refl)|destruct r as [[]|e|]; [congruence|auto|auto]]|]; intros d Ed.
  assert (Hd : match x with AMat a => (a < length (h_mat s))%nat /\ mat_at s a = d | _ => True end).
  { destruct x as [a|a|r]; [exact I| |exact I]; split; [apply Nat.ltb_lt; exact Hx|]; eapply (check_data_arr (Nd2 (mat_at s a))); [exact Ed|reflexivity]. }
  assert (Key : forall s' a, grows i s s' -> (a < length (h_mat s'))%nat -> mat_at s' a = d -> a = stored_mat x s ->
    isim i (rbind (rread (fun s => ip_at s i)) (fun p => put_ip i (mkRI (ri_degree p) (Some a) (ri_num p) (ri_top p) (ri_bottom p) (ri_init p) (ri_param p) (ri_fit p)))) s'
      (let b := ip_val s i in mkIP (ip_degree b) (Some d) (ip_num b) (ip_top b) (ip_bottom b) (ip_init b) (ip_param b) (ip_fit b), Ok tt)
      (fun s' r => imade i s s' /\ ri_data (ip_at s' i) = (match r with Ok _ => Some (stored_mat x s) | _ => ri_data (ip_at s i) end) /\
        ri_top (ip_at s' i) = ri_top (ip_at s i) /\ ri_bottom (ip_at s' i) = ri_bottom (ip_at s i))).
  { intros s' a (W' & B' & P' & V') La Ma Ea; apply isim_read, isim_put; [exact W'|rewrite (iframe_len _ _ _ B'); exact Hi| | |].
    - destruct (wf_ip s' i W') as (H1 & H2 & H3 & H4 & H5 & H6); repeat split; assumption.
    - rewrite <- V'; unfold ip_read, ip_val; cbn [ri_data option_map]; rewrite Ma; reflexivity.
    - intros s2 E1 E2 E3 E4; unfold imade; rewrite E4; cbn [ri_init ri_fit ri_param ri_data ri_top ri_bottom]; rewrite P', Ea.
      split; [|auto]; split; [|split]; left; reflexivity. }
  assert (Fresh : isim i (rbind (new_mat d) (fun a => rbind (rread (fun s => ip_at s i)) (fun p => put_ip i (mkRI (ri_degree p) (Some a) (ri_num p) (ri_top p) (ri_bottom p) (ri_init p) (ri_param p) (ri_fit p))))) s
      (let b := ip_val s i in mkIP (ip_degree b) (Some d) (ip_num b) (ip_top b) (ip_bottom b) (ip_init b) (ip_param b) (ip_fit b), Ok tt)
      (fun s' r => imade i s s' /\ ri_data (ip_at s' i) = (match r with Ok _ => Some (stored_mat x s) | _ => ri_data (ip_at s i) end) /\
        ri_top (ip_at s' i) = ri_top (ip_at s i) /\ ri_bottom (ip_at s' i) = ri_bottom (ip_at s i)) \/ exists a, x = AMat a).
  { destruct x as [a|a|r]; [left|right; exists a; reflexivity|left]; pose proof (grow_mat i s d W) as G;
      (eapply isim_grow; [reflexivity|exact (proj1 (proj2 G))|]); (apply Key; [exact G|unfold new_mat; cbn [fst h_mat]; rewrite app_length; cbn [length]; lia| |reflexivity]);
      unfold mat_at, new_mat; cbn [fst h_mat]; rewrite app_nth2, Nat.sub_diag by lia; reflexivity. }
  destruct x as [a|a|r].
  - destruct Fresh as [F|[a' Ha']]; [exact F|discriminate].
  - destruct Hd as [La Ma]; apply (Key s a); [split; [exact W|]; split; [apply iframe_refl|auto]|exact La|exact Ma|reflexivity].
  - destruct Fresh as [F|[a' Ha']]; [exact F|discriminate].
Qed.

Lemma check_bound_val s x b : check_boundary (barg_val s x) = Ok b -> exists d, x = DBound d /\ b = bd_val s d /\ rd_fit (bd_at s d) <> None.
Proof.
  destruct x as [d| |j|]; cbn [barg_val check_boundary]; try discriminate.
  change (bp_fit (bd_val s d)) with (option_map (curve_val s) (rd_fit (bd_at s d))).
  destruct (rd_fit (bd_at s d)) eqn:E; cbn [option_map]; [|discriminate]; intros H; injection H as <-; exists d; rewrite E; split; [reflexivity|split; [reflexivity|discriminate]].
Qed.
Lemma isim_ext i (m m' : rm unit) s out R : m s = m' s -> isim i m' s out R -> isim i m s out R.
Proof. intros E; unfold isim; rewrite E; exact (fun H => H). Qed.
Lemma isim_top i x s : wf s -> (i < length (h_ip s))%nat -> barg_ok s x = true ->
  isim i (r_set_top i x) s (ip_set_top (ip_val s i) (barg_val s x)) (fun s' r => imade i s s' /\
    (match r with Ok _ => exists d, x = DBound d /\ ri_top (ip_at s' i) = Some d | _ => ri_top (ip_at s' i) = ri_top (ip_at s i) end) /\
    ri_data (ip_at s' i) = ri_data (ip_at s i) /\ ri_bottom (ip_at s' i) = ri_bottom (ip_at s i)).
Proof.
  intros W Hi Hx; unfold r_set_top, r_check_bound; unfold ip_set_top.
  destruct (check_boundary (barg_val s x)) as [b|e|] eqn:Ec; cbn [bind finish].
  - destruct (check_bound_val s x b Ec) as (d & -> & -> & Hf).
    apply (isim_ext i _ (put_ip i (mkRI (ri_degree (ip_at s i)) (ri_data (ip_at s i)) (ri_num (ip_at s i)) (Some d) (ri_bottom (ip_at s i)) (ri_init (ip_at s i)) (ri_param (ip_at s i)) (ri_fit (ip_at s i))))); [unfold rbind, rread, rpure; rewrite Ec; reflexivity|].
    apply isim_put; [exact W|exact Hi| |reflexivity|].
    + destruct (wf_ip s i W) as (H1 & H2 & H3 & H4 & H5 & H6); repeat split; try assumption; apply Nat.ltb_lt; exact Hx.
    + intros s2 E1 E2 E3 E4; unfold imade; rewrite E4; cbn [ri_init ri_fit ri_param ri_data ri_top ri_bottom].
      split; [split; [|split]; left; reflexivity|]; split; [exists d; auto|auto].
  - unfold isim, rbind, rread, rpure; rewrite Ec; split; [exact W|]; split; [apply iframe_refl|]; split; [reflexivity|]; split; [reflexivity|].
    split; [apply (IQ_same i s s (Err e) eq_refl)|repeat split].
  - unfold isim, rbind, rread, rpure; rewrite Ec; split; [exact W|]; split; [apply iframe_refl|]; split; [reflexivity|]; split; [reflexivity|].
    split; [apply (IQ_same i s s Diverge eq_refl)|repeat split].
Qed.
Lemma isim_bottom i x s : wf s -> (i < length (h_ip s))%nat -> barg_ok s x = true ->
  isim i (r_set_bottom i x) s (ip_set_bottom (ip_val s i) (barg_val s x)) (fun s' r => imade i s s' /\
    (match r with Ok _ => exists d, x = DBound d /\ ri_bottom (ip_at s' i) = Some d | _ => ri_bottom (ip_at s' i) = ri_bottom (ip_at s i) end) /\
    ri_data (ip_at s' i) = ri_data (ip_at s i) /\ ri_top (ip_at s' i) = ri_top (ip_at s i)).
Proof.
  intros W Hi Hx; unfold r_set_bottom, r_check_bound; unfold ip_set_bottom.
  destruct (check_boundary (barg_val s x)) as [b|e|] eqn:Ec; cbn [bind finish].
  - destruct (check_bound_val s x b Ec) as (d & -> & -> & Hf).
    apply (isim_ext i _ (put_ip i (mkRI (ri_degree (ip_at s i)) (ri_data (ip_at s i)) (ri_num (ip_at s i)) (ri_top (ip_at s i)) (Some d) (ri_init (ip_at s i)) (ri_param (ip_at s i)) (ri_fit (ip_at s i))))); [unfold rbind, rread, rpure; rewrite Ec; reflexivity|].
    apply isim_put; [exact W|exact Hi| |reflexivity|].
    + destruct (wf_ip s i W) as (H1 & H2 & H3 & H4 & H5 & H6); repeat split; try assumption; apply Nat.ltb_lt; exact Hx.
    + intros s2 E1 E2 E3 E4; unfold imade; rewrite E4; cbn [ri_init ri_fit ri_param ri_data ri_top ri_bottom].
      split; [split; [|split]; left; reflexivity|]; split; [exists d; auto|auto].
  - unfold isim, rbind, rread, rpure; rewrite Ec; split; [exact W|]; split; [apply iframe_refl|]; split; [reflexivity|]; split; [reflexivity|].
    split; [apply (IQ_same i s s (Err e) eq_refl)|repeat split].
  - unfold isim, rbind, rread, rpure; rewrite Ec; split; [exact W|]; split; [apply iframe_refl|]; split; [reflexivity|]; split; [reflexivity|].
    split; [apply (IQ_same i s s Diverge eq_refl)|repeat split].
Qed.

(** ** The initial surface *)
Lemma init_surface_ku new t b dg nm (f : surf K) : init_surface new t b dg nm = Ok f ->
  exists b' c, b = Some b' /\ bp_fit b' = Some c /\ c_kv c = Some (s_ku f).
Proof.
  unfold init_surface; destruct t as [t|]; [|discriminate]; destruct b as [b|]; [|discriminate].
  destruct (negb _); [discriminate|]; destruct (negb _); [discriminate|].
  destruct new as [o|e|]; cbn [bind]; try discriminate.
  destruct (bp_degree b) as [pu|]; [|discriminate]; destruct dg as [pv|]; [|discriminate]; destruct (bp_num b) as [nu|]; [|discriminate]; destruct nm as [nv|]; [|discriminate].
  intros H; repeat match type of H with bind ?m _ = Ok _ => destruct m as [?|?|]; cbn [bind] in H; try discriminate end.
  destruct (bp_fit b) as [c|] eqn:Ef; [|discriminate]; destruct (c_kv c) as [ku|] eqn:Ek; [|discriminate].
  destruct (generate_uniform pv nv); cbn [bind] in H; try discriminate; injection H as <-; exists b, c; auto.
Qed.
Definition fresh_iinit i s s' : Prop := exists k, ri_init (ip_at s' i) = Some k /\ new_surf s s' k /\
  (length (h_vec s) <= rs_kv (sur_at s' k))%nat /\ bottom_knots s i = Some (rs_ku (sur_at s' k)).
Lemma isim_init new i s : wf s -> (i < length (h_ip s))%nat ->
  isim i (r_set_isurf new i) s (ip_set_init new (ip_val s i)) (fun s' r => IQ i s s' r /\ ri_fit (ip_at s' i) = ri_fit (ip_at s i) /\ (r = Ok tt -> fresh_iinit i s s')).
Proof.
  intros W Hi; unfold r_set_isurf; apply isim_read, isim_read; unfold ip_set_init.
  set (v := init_surface _ _ _ _ _).
  replace (finish _ _) with (match v with Ok f => (let b := ip_val s i in mkIP (ip_degree b) (ip_data b) (ip_num b) (ip_top b) (ip_bottom b) (Some f) (ip_param b) (ip_fit b), Ok tt)
    | Err e => (ip_val s i, Err e) | Diverge => (ip_val s i, Diverge) end) by (destruct v; reflexivity).
  apply isim_pure; [exact W|intros r Hr; split; [apply IQ_same; reflexivity|split; congruence]|]; intros f Ef.
  destruct (init_surface_ku _ _ _ _ _ _ Ef) as (b' & c & Eb & Ec & Ek).
  assert (Hk : bottom_knots s i <> None /\ forall a, bottom_knots s i = Some a -> vec_at s a = s_ku f /\ (a < length (h_vec s))%nat).
  { revert Eb; unfold bottom_knots; change (ip_bottom (ip_val s i)) with (option_map (bd_val s) (ri_bottom (ip_at s i))).
    pose proof (wf_ip s i W) as (_ & _ & Wb & _); destruct (ri_bottom (ip_at s i)) as [d|]; [|discriminate]; cbn [option_map inrng] in *.
    intros H; injection H as <-; change (bp_fit (bd_val s d)) with (option_map (curve_val s) (rd_fit (bd_at s d))) in Ec.
    destruct (proj1 (proj2 (proj2 (proj2 W))) (bd_at s d) (nth_In _ _ Wb)) as [Wd _].
    destruct (rd_fit (bd_at s d)) as [k|]; [|discriminate]; cbn [option_map inrng] in *; injection Ec as <-.
    destruct (wf_cur s k W Wd) as [_ Wk]; change (c_kv (curve_val s k)) with (option_map (vec_at s) (rc_kv (cur_at s k))) in Ek.
    destruct (rc_kv (cur_at s k)) as [a|]; [|discriminate]; cbn [option_map inrng] in *; injection Ek as Ek; split; [discriminate|].
    intros a' Ha'; injection Ha' as <-; auto. }
  apply isim_read; fold (bottom_knots s i).
  destruct Hk as [Hk1 Hk2]; destruct (bottom_knots s i) as [ku|] eqn:EK; [|congruence]; destruct (Hk2 ku eq_refl) as [Vk Lk]; clear Hk1 Hk2.
  unfold new_rows.
  pose proof (grow_mat i s (mkData (width (s_ctrl f)) (s_ctrl f)) W) as (W1 & B1 & P1 & V1).
  set (s1 := fst (new_mat _ s)) in *; apply (isim_grow i _ _ s s1 (length (h_mat s)) _ _ eq_refl B1).
  assert (M1 : mat_at s1 (length (h_mat s)) = mkData (width (s_ctrl f)) (s_ctrl f)) by (unfold s1, mat_at, new_mat; cbn [fst h_mat]; rewrite app_nth2, Nat.sub_diag by lia; reflexivity).
  assert (L1 : length (h_mat s1) = S (length (h_mat s))) by (unfold s1, new_mat; cbn [fst h_mat]; rewrite app_length; cbn [length]; lia).
  pose proof (grow_vec i s1 (s_kv f) W1) as (W2 & B2 & P2 & V2).
  set (s2 := fst (new_vec _ s1)) in *; apply (isim_grow i _ _ s1 s2 (length (h_vec s1)) _ _ eq_refl B2).
  assert (Q2 : vec_at s2 (length (h_vec s)) = s_kv f) by (unfold s2, vec_at, new_vec; cbn [fst h_vec]; rewrite app_nth2, Nat.sub_diag by (unfold s1, new_mat; cbn [fst h_vec]; lia); reflexivity).
  assert (L2 : length (h_vec s2) = S (length (h_vec s))) by (unfold s2, new_vec; cbn [fst h_vec]; rewrite app_length; cbn [length]; unfold s1, new_mat; cbn [fst h_vec]; lia).
  set (F := mkRS (s_pu f) (s_pv f) (s_nu f) (s_nv f) (length (h_mat s)) ku (length (h_vec s1))).
  assert (WF : sur_wf s2 F).
  { unfold sur_wf, F; cbn [rs_ctrl rs_ku rs_kv]; rewrite L2; change (length (h_mat s2)) with (length (h_mat s1)); change (length (h_vec s1)) with (length (h_vec s)); rewrite L1; lia. }
  pose proof (grow_sur i s2 F W2 WF) as (W3 & B3 & P3 & V3).
  set (s3 := fst (new_sur F s2)) in *; apply (isim_grow i _ _ s2 s3 (length (h_sur s2)) _ _ eq_refl B3).
  assert (S3 : sur_at s3 (length (h_sur s2)) = F) by (unfold s3, sur_at, new_sur; cbn [fst h_sur]; rewrite app_nth2, Nat.sub_diag by lia; reflexivity).
  assert (L3 : length (h_sur s3) = S (length (h_sur s))) by (unfold s3, new_sur; cbn [fst h_sur]; rewrite app_length; cbn [length]; unfold s2, s1, new_vec, new_mat; cbn [fst h_sur]; lia).
  assert (X3 : surf_val s3 (length (h_sur s2)) = f).
  { unfold surf_val; rewrite S3; unfold F; cbn [rs_pu rs_pv rs_nu rs_nv rs_ctrl rs_ku rs_kv].
    change (vec_at s3) with (vec_at s2); change (mat_at s3) with (mat_at s1); rewrite M1; change (length (h_vec s1)) with (length (h_vec s)); rewrite Q2.
    assert (vec_at s2 ku = s_ku f) as -> by (rewrite (gext_vec s1 s2) by (apply B2 || exact Lk); exact Vk); destruct f; reflexivity. }
  assert (P : ip_at s3 i = ip_at s i) by congruence.
  apply isim_put; [exact W3|exact Hi| | |].
  - pose proof (wf_ip s3 i W3) as Wp; rewrite P in Wp; destruct Wp as (H1 & H2 & H3 & H4 & H5 & H6); repeat split; try assumption.
    change (length (h_sur s2) < length (h_sur s3))%nat; rewrite L3; change (length (h_sur s2)) with (length (h_sur s)); lia.
  - assert (V : ip_val s3 i = ip_val s i) by congruence; cbv zeta; rewrite <- V; unfold ip_read, ip_val; rewrite P.
    cbn [ri_degree ri_data ri_num ri_top ri_bottom ri_init ri_param ri_fit option_map ip_degree ip_data ip_num ip_top ip_bottom ip_init ip_param ip_fit]; rewrite X3; reflexivity.
  - intros s4 E1 E2 E3 E4.
    assert (S4 : sur_at s4 (length (h_sur s2)) = F) by (rewrite <- S3; unfold sur_at; rewrite E3; reflexivity).
    assert (Fr : exists k, Some (length (h_sur s2)) = Some k /\ new_surf s s4 k /\ (length (h_vec s) <= rs_kv (sur_at s4 k))%nat /\ bottom_knots s i = Some (rs_ku (sur_at s4 k))).
    { exists (length (h_sur s2)); split; [reflexivity|]; unfold new_surf; rewrite S4, E3; split; [split; [rewrite L3; change (length (h_sur s2)) with (length (h_sur s)); lia|unfold F; cbn [rs_ctrl]; lia]|].
      split; [unfold F; cbn [rs_kv]; change (length (h_vec s1)) with (length (h_vec s)); lia|rewrite EK; reflexivity]. }
    unfold IQ, imade, ikept, fresh_iinit; rewrite E4; cbn [ri_init ri_fit ri_param ri_data ri_top ri_bottom].
    split; [|split; [reflexivity|intros _; exact Fr]]; split; [|auto]; split; [right; exact Fr|split; left; reflexivity].
Qed.

(** ** Parameterization and fit *)
Definition ist (b : iproblem K) (c : option (surf K)) : iproblem K * res unit :=
  finish b (let* d := parameterize_surface_opt c (ip_data b) in
    Ok (mkIP (ip_degree b) (ip_data b) (ip_num b) (ip_top b) (ip_bottom b) (ip_init b) (Some d) (ip_fit b))).
Definition only_param i s s' : Prop := ri_init (ip_at s' i) = ri_init (ip_at s i) /\ ri_fit (ip_at s' i) = ri_fit (ip_at s i).
Definition fresh_iparam i s s' : Prop := exists a, ri_param (ip_at s' i) = Some a /\ (length (h_mat s) <= a)%nat.
Lemma fresh_iparam_r i s s1 s2 : gext s s1 -> fresh_iparam i s1 s2 -> fresh_iparam i s s2.
Proof. intros (_ & [m M] & _) (a & E & L); exists a; split; [exact E|rewrite M, app_length in L; lia]. Qed.
Lemma isim_store i k s : wf s -> (i < length (h_ip s))%nat ->
  isim i (r_istore_param i k) s (ist (ip_val s i) (option_map (surf_val s) k)) (fun s' r => IQ i s s' r /\ only_param i s s' /\ (r = Ok tt -> fresh_iparam i s s')).
Proof.
  intros W Hi; unfold r_istore_param; apply isim_read, isim_read; unfold ist.
  set (v := parameterize_surface_opt _ _).
  replace (finish _ _) with (match v with Ok d => (let b := ip_val s i in mkIP (ip_degree b) (ip_data b) (ip_num b) (ip_top b) (ip_bottom b) (ip_init b) (Some d) (ip_fit b), Ok tt)
    | Err e => (ip_val s i, Err e) | Diverge => (ip_val s i, Diverge) end) by (destruct v; reflexivity).
  apply isim_pure; [exact W|intros r Hr; split; [apply IQ_same; reflexivity|split; [split; reflexivity|congruence]]|]; intros d Ed.
  pose proof (grow_mat i s d W) as (W1 & B1 & P1 & V1); set (s1 := fst (new_mat _ s)) in *; apply (isim_grow i _ _ s s1 (length (h_mat s)) _ _ eq_refl B1).
  apply isim_read, isim_put; [exact W1|exact Hi| | |].
  - destruct (wf_ip s1 i W1) as (H1 & H2 & H3 & H4 & H5 & H6); repeat split; try assumption.
    cbn [ri_param inrng]; unfold s1, new_mat; cbn [fst h_mat]; rewrite app_length; cbn [length]; lia.
  - assert (M1 : mat_at s1 (length (h_mat s)) = d) by (unfold s1, mat_at, new_mat; cbn [fst h_mat]; rewrite app_nth2, Nat.sub_diag by lia; reflexivity).
    cbv zeta; rewrite <- V1; unfold ip_read, ip_val; cbn [ri_param option_map]; rewrite M1; reflexivity.
  - intros s2 E1 E2 E3 E4; unfold IQ, imade, ikept, only_param, fresh_iparam; rewrite E4; cbn [ri_init ri_fit ri_param ri_data ri_top ri_bottom]; rewrite P1.
    split; [|split; [auto|intros _; exists (length (h_mat s)); split; [reflexivity|lia]]]; split; [|auto]; split; [left; reflexivity|split; [left; reflexivity|right]]; exists (length (h_mat s)); split; [reflexivity|lia].
Qed.
Lemma iparam_eq new b : (forall c, ip_fit b = Some c -> ip_parameterize new b = ist b (Some c)) /\
  (forall c, ip_fit b = None -> ip_init b = Some c -> ip_parameterize new b = ist b (Some c)) /\
  (ip_fit b = None -> ip_init b = None -> ip_parameterize new b = andthen (ip_set_init new b) (fun b => ist b (ip_init b))).
Proof.
  destruct b as [d dt n t bo ini par fit]; unfold ip_parameterize; cbn [ip_fit ip_init]; split; [|split].
  - intros c ->; destruct ini; reflexivity.
  - intros c -> ->; reflexivity.
  - intros -> ->; reflexivity.
Qed.
Lemma isim_weaken i m s out (R R' : store -> res unit -> Prop) : isim i m s out R -> (forall s' r, R s' r -> R' s' r) -> isim i m s out R'.
Proof. intros (A & B & C & D & E) H; split; [exact A|]; split; [exact B|]; split; [exact C|]; split; [exact D|exact (H _ _ E)]. Qed.
(** [isim] with the frame at hand. *)
Lemma isim_more i m s out (R R' : store -> res unit -> Prop) : isim i m s out R -> (forall s' r, wf s' -> iframe i s s' -> R s' r -> R' s' r) -> isim i m s out R'.
Proof. intros (A & B & C & D & E) H; split; [exact A|]; split; [exact B|]; split; [exact C|]; split; [exact D|exact (H _ _ A B E)]. Qed.
Lemma isim_param new i s : wf s -> (i < length (h_ip s))%nat ->
  isim i (r_iparameterize new i) s (ip_parameterize new (ip_val s i)) (fun s' r => IQ i s s' r /\ (ri_fit (ip_at s i) <> None -> only_param i s s') /\ (r = Ok tt -> fresh_iparam i s s')).
Proof.
  intros W Hi; unfold r_iparameterize; apply isim_read; destruct (iparam_eq new (ip_val s i)) as (E1 & E2 & E3).
  assert (Ii : ip_init (ip_val s i) = option_map (surf_val s) (ri_init (ip_at s i))) by reflexivity.
  assert (Fi : ip_fit (ip_val s i) = option_map (surf_val s) (ri_fit (ip_at s i))) by reflexivity.
  destruct (ri_init (ip_at s i)) as [k|], (ri_fit (ip_at s i)) as [f|]; cbn [option_map] in *.
  - rewrite (E1 _ Fi); eapply isim_weaken; [apply (isim_store i (Some f)); assumption|]; intros s' r [A [B C]]; auto.
  - rewrite (E2 _ Fi Ii); eapply isim_weaken; [apply (isim_store i (Some k)); assumption|]; intros s' r [A [B C]]; auto.
  - rewrite (E1 _ Fi); eapply isim_weaken; [apply (isim_store i (Some f)); assumption|]; intros s' r [A [B C]]; auto.
  - rewrite (E3 Fi Ii); eapply isim_then; [apply isim_init; assumption|cbn beta; intros s' r Hr [A B]; split; [exact A|split; congruence]|].
    intros s' W' B' V' O' [A [F _]]; apply isim_read; rewrite <- V'.
    eapply isim_more; [apply (isim_store i (ri_init (ip_at s' i))); [exact W'|rewrite (iframe_len _ _ _ B'); exact Hi]|].
    intros s2 r W2 B2 [A2 [O2 F2]]; split; [eapply (IQ_trans i s s' s2 (Ok tt)); eauto|split; [congruence|]].
    intros Hr; exact (fresh_iparam_r _ _ _ _ (proj1 B') (F2 Hr)).
Qed.
Lemma fit_surface_shape sv (f f' : surf K) data t b : fit_surface sv f data t b = Ok f' ->
  exists P, f' = mkSurf (s_pu f) (s_pv f) (s_nu f) (s_nv f) P (s_ku f) (s_kv f).
Proof.
  unfold fit_surface, single_fit_surface; intros H.
  repeat match type of H with
    | bind ?m _ = Ok _ => destruct m as [?|?|]; cbn [bind] in H; try discriminate
    | (let '(_, _) := ?m in _) = Ok _ => destruct m
    | match ?m with Some _ => _ | None => _ end = Ok _ => destruct m; try discriminate
    end.
  injection H as <-; eexists; reflexivity.
Qed.
(** base_data.py:632-654 after the initial surface. *)
Definition r_ifit_tail (new : res (surf_obj K)) (sv : solver K) (i : nat) : rm unit :=
  rbind (rread (fun s => ip_at s i)) (fun p => rbind (rread (fun s => ip_val s i)) (fun v =>
    match ri_init p, ip_data v with
    | Some k, Some data =>
        match ip_top v, ip_bottom v with
        | Some t, Some b =>
            rbind (rread (fun s => surf_val s k)) (fun w => rbind (rread (fun s => sur_at s k)) (fun f0 =>
            rbind (rpure (fit_surface sv w data (bp_param t) (bp_param b))) (fun f =>
            rbind (new_rows (s_ctrl f)) (fun a =>
            rbind (new_sur (mkRS (rs_pu f0) (rs_pv f0) (rs_nu f0) (rs_nv f0) a (rs_ku f0) (rs_kv f0))) (fun k' =>
            rbind (put_ip i (mkRI (ri_degree p) (ri_data p) (ri_num p) (ri_top p) (ri_bottom p) (ri_init p) (ri_param p) (Some k'))) (fun _ =>
            r_iparameterize new i))))))
        | _, _ => rpure (Err AttributeError)
        end
    | _, _ => rpure (Err TypeError)
    end)).
Definition ip_fit_tail (new : res (surf_obj K)) (sv : solver K) (p : iproblem K) : iproblem K * res unit :=
  match ip_init p, ip_data p with
  | Some s, Some data =>
      match ip_top p, ip_bottom p with
      | Some t, Some b =>
          match fit_surface sv s data (bp_param t) (bp_param b) with
          | Ok s' =>
              ip_parameterize new (mkIP (ip_degree p) (ip_data p) (ip_num p) (ip_top p) (ip_bottom p) (ip_init p) (ip_param p) (Some s'))
          | Err e => (p, Err e)
          | Diverge => (p, Diverge)
          end
      | _, _ => (p, Err AttributeError)
      end
  | _, _ => (p, Err TypeError)
  end.
Lemma tail_eq new sv (p : iproblem K) f data t b : ip_init p = Some f -> ip_data p = Some data -> ip_top p = Some t -> ip_bottom p = Some b ->
  ip_fit_tail new sv p = match fit_surface sv f data (bp_param t) (bp_param b) with
    | Ok s' => ip_parameterize new (mkIP (ip_degree p) (ip_data p) (ip_num p) (ip_top p) (ip_bottom p) (ip_init p) (ip_param p) (Some s'))
    | Err e => (p, Err e) | Diverge => (p, Diverge) end.
Proof. destruct p as [d dt n t' b' ini par fit]; cbn [ip_init ip_data ip_top ip_bottom]; intros -> -> -> ->; reflexivity. Qed.
Lemma tail_err new sv (p : iproblem K) : (ip_init p = None \/ ip_data p = None -> ip_fit_tail new sv p = (p, Err TypeError)) /\
  (ip_init p <> None -> ip_data p <> None -> ip_top p = None \/ ip_bottom p = None -> ip_fit_tail new sv p = (p, Err AttributeError)).
Proof.
  destruct p as [d dt n t b ini par fit]; unfold ip_fit_tail; cbn [ip_init ip_data ip_top ip_bottom]; split.
  - intros [-> | ->]; [reflexivity|destruct ini; reflexivity].
  - intros H1 H2; destruct ini; [|congruence]; destruct dt; [|congruence]; intros [-> | ->]; [reflexivity|destruct t; reflexivity].
Qed.
(** On success a new surface with the knots of the initial one. *)
Definition fresh_ifit i s s' : Prop := exists k j, ri_fit (ip_at s' i) = Some k /\ ri_init (ip_at s' i) = Some j /\ new_surf s s' k /\
  rs_ku (sur_at s' k) = rs_ku (sur_at s' j) /\ rs_kv (sur_at s' k) = rs_kv (sur_at s' j).
Lemma isim_tail new sv i s : wf s -> (i < length (h_ip s))%nat ->
  isim i (r_ifit_tail new sv i) s (ip_fit_tail new sv (ip_val s i)) (fun s' r => IQ i s s' r /\ ri_init (ip_at s' i) = ri_init (ip_at s i) /\ (r = Ok tt -> fresh_ifit i s s' /\ fresh_iparam i s s')).
Proof.
  intros W Hi; unfold r_ifit_tail; apply isim_read, isim_read; destruct (tail_err new sv (ip_val s i)) as [T1 T2].
  assert (Ii : ip_init (ip_val s i) = option_map (surf_val s) (ri_init (ip_at s i))) by reflexivity.
  pose proof (wf_ip s i W) as Wp; destruct (ri_init (ip_at s i)) as [k|] eqn:Ek; cbn [option_map] in Ii.
  2:{ rewrite T1 by (left; exact Ii); apply isim_err; [exact W|split; [apply IQ_same; reflexivity|split; [congruence|discriminate]]]. }
  assert (Hk : (k < length (h_sur s))%nat) by (pose proof (proj1 (proj2 (proj2 (proj2 Wp)))) as X; rewrite Ek in X; exact X).
  destruct (ip_data (ip_val s i)) as [data|] eqn:Edata.
  2:{ rewrite T1 by (right; reflexivity); apply isim_err; [exact W|split; [apply IQ_same; reflexivity|split; [congruence|discriminate]]]. }
  destruct (ip_top (ip_val s i)) as [t|] eqn:Et.
  2:{ rewrite T2 by (congruence || (left; reflexivity)); apply isim_err; [exact W|split; [apply IQ_same; reflexivity|split; [congruence|discriminate]]]. }
  destruct (ip_bottom (ip_val s i)) as [b|] eqn:Eb.
  2:{ rewrite T2 by (congruence || (right; reflexivity)); apply isim_err; [exact W|split; [apply IQ_same; reflexivity|split; [congruence|discriminate]]]. }
  rewrite (tail_eq new sv _ _ _ _ _ Ii Edata Et Eb); clear T1 T2; apply isim_read, isim_read.
  apply isim_pure; [exact W|intros r Hr; split; [apply IQ_same; reflexivity|split; congruence]|]; intros f Ef.
  destruct (fit_surface_shape _ _ _ _ _ _ Ef) as [Pn EP]; unfold new_rows.
  pose proof (grow_mat i s (mkData (width (s_ctrl f)) (s_ctrl f)) W) as (W1 & B1 & P1 & V1).
  set (s1 := fst (new_mat _ s)) in *; apply (isim_grow i _ _ s s1 (length (h_mat s)) _ _ eq_refl B1).
  assert (M1 : mat_at s1 (length (h_mat s)) = mkData (width (s_ctrl f)) (s_ctrl f)) by (unfold s1, mat_at, new_mat; cbn [fst h_mat]; rewrite app_nth2, Nat.sub_diag by lia; reflexivity).
  assert (L1 : length (h_mat s1) = S (length (h_mat s))) by (unfold s1, new_mat; cbn [fst h_mat]; rewrite app_length; cbn [length]; lia).
  destruct (proj1 (proj2 W) (sur_at s k) (nth_In _ _ Hk)) as (Wc & Wu & Wv).
  set (F := mkRS (rs_pu (sur_at s k)) (rs_pv (sur_at s k)) (rs_nu (sur_at s k)) (rs_nv (sur_at s k)) (length (h_mat s)) (rs_ku (sur_at s k)) (rs_kv (sur_at s k))).
  assert (WF : sur_wf s1 F) by (unfold sur_wf, F; cbn [rs_ctrl rs_ku rs_kv]; rewrite L1; change (length (h_vec s1)) with (length (h_vec s)); lia).
  pose proof (grow_sur i s1 F W1 WF) as (W2 & B2 & P2 & V2).
  set (s2 := fst (new_sur F s1)) in *; apply (isim_grow i _ _ s1 s2 (length (h_sur s1)) _ _ eq_refl B2).
  assert (S2 : sur_at s2 (length (h_sur s1)) = F) by (unfold s2, sur_at, new_sur; cbn [fst h_sur]; rewrite app_nth2, Nat.sub_diag by lia; reflexivity).
  assert (L2 : length (h_sur s2) = S (length (h_sur s))) by (unfold s2, new_sur; cbn [fst h_sur]; rewrite app_length; cbn [length]; unfold s1, new_mat; cbn [fst h_sur]; lia).
  assert (X2 : surf_val s2 (length (h_sur s1)) = f).
  { unfold surf_val; rewrite S2; unfold F; cbn [rs_pu rs_pv rs_nu rs_nv rs_ctrl rs_ku rs_kv].
    change (mat_at s2) with (mat_at s1); change (vec_at s2) with (vec_at s); rewrite M1; cbn [dt_rows]; rewrite EP; reflexivity. }
  set (p' := mkRI _ _ _ _ _ _ _ (Some (length (h_sur s1)))).
  assert (P : ip_at s2 i = ip_at s i) by congruence.
  assert (Wp' : ip_wf s2 p').
  { pose proof (wf_ip s2 i W2) as Wq; rewrite P in Wq; destruct Wq as (H1 & H2 & H3 & H4 & H5 & H6); rewrite Ek in H4; repeat split; try assumption.
    unfold p'; cbn [ri_fit inrng]; rewrite L2; change (length (h_sur s1)) with (length (h_sur s)); lia. }
  match goal with |- isim _ _ _ (ip_parameterize _ ?r) _ => replace r with (ip_read s2 p') end.
  2:{ assert (V : ip_val s2 i = ip_val s i) by congruence; rewrite <- V; unfold ip_read, ip_val, p'; rewrite P, Ek.
      cbn [ri_degree ri_data ri_num ri_top ri_bottom ri_init ri_param ri_fit option_map ip_degree ip_data ip_num ip_top ip_bottom ip_init ip_param ip_fit]; rewrite X2; reflexivity. }
  assert (O3 : isim i (put_ip i p') s2 (ip_read s2 p', Ok tt) (fun s' _ => h_sur s' = h_sur s2 /\ ip_at s' i = p')).
  { apply isim_put; [exact W2|exact Hi|exact Wp'|reflexivity|]; intros s' E1 E2 E3 E4; auto. }
  set (s3 := fst (put_ip i p' s2)) in *; destruct O3 as (W3 & B3 & V3 & _ & (E3 & P3)); cbn [fst snd] in V3; fold s3 in W3, B3, V3, E3, P3.
  assert (Hi3 : (i < length (h_ip s3))%nat) by (rewrite (iframe_len _ _ _ B3); exact Hi).
  assert (Q3 : IQ i s s3 (Ok tt)).
  { unfold IQ, imade, ikept; rewrite P3; unfold p'; cbn [ri_init ri_fit ri_param ri_data ri_top ri_bottom].
    split; [|auto]; split; [left; symmetry; exact Ek|split; [right|left; reflexivity]].
    assert (S3 : sur_at s3 (length (h_sur s1)) = F) by (rewrite <- S2; unfold sur_at; rewrite E3; reflexivity).
    exists (length (h_sur s1)), k; split; [reflexivity|]; split; [reflexivity|]; split; [change (length (h_sur s1)) with (length (h_sur s)); lia|]; unfold new_surf; rewrite S3, E3, L2; split; [split; [change (length (h_sur s1)) with (length (h_sur s)); lia|unfold F; cbn [rs_ctrl]; lia]|].
    assert (Sk : sur_at s3 k = sur_at s k) by (apply gext_sur; [exact (gext_trans _ _ _ (gext_trans _ _ _ (proj1 B1) (proj1 B2)) (proj1 B3))|exact Hk]).
    rewrite Sk; split; reflexivity. }
  pose proof (isim_param new i s3 W3 Hi3) as (W4 & B4 & V4 & O4 & (Q4 & N4 & F4)); rewrite V3 in V4, O4.
  split; [exact W4|]; split; [exact (iframe_trans _ _ _ _ B3 B4)|]; split; [exact V4|]; split; [exact O4|].
  assert (B13 : iframe i s s3) by exact (iframe_trans _ _ _ _ (iframe_trans _ _ _ _ B1 B2) B3).
  assert (N : only_param i s3 (fst (r_iparameterize new i s3))) by (apply N4; rewrite P3; discriminate).
  split.
  - apply (IQ_trans i s s3 _ (Ok tt)); [exact W|exact W3|exact W4|exact B13|exact B4| |exact Q3|exact Q4].
    right; apply N.
  - split; [etransitivity; [exact (proj1 N)|rewrite P3; reflexivity]|].
    intros Hr; split; [|exact (fresh_iparam_r _ _ _ _ (proj1 B13) (F4 Hr))].
    assert (S3 : sur_at s3 (length (h_sur s1)) = F) by (rewrite <- S2; unfold sur_at; rewrite E3; reflexivity).
    assert (L3 : length (h_sur s3) = S (length (h_sur s))) by (rewrite E3; exact L2).
    exists (length (h_sur s1)), k; destruct N as [N1 N2]; unfold p' in P3; rewrite P3 in N1, N2; cbn [ri_init ri_fit] in N1, N2.
    change (rbind (put_ip i p') (fun _ => r_iparameterize new i) s2) with (r_iparameterize new i s3).
    split; [exact N2|]; split; [exact N1|].
    assert (N3 : new_surf s s3 (length (h_sur s1))) by (split; [rewrite L3; change (length (h_sur s1)) with (length (h_sur s)); lia|rewrite S3; unfold F; cbn [rs_ctrl]; lia]).
    split; [exact (new_surf_l _ _ _ _ (proj1 B4) N3)|].
    rewrite !(gext_sur s3 _ _ (proj1 B4)) by (rewrite L3; change (length (h_sur s1)) with (length (h_sur s)); lia).
    rewrite S3, (gext_sur s s3 k (proj1 B13) Hk); split; reflexivity.
Qed.
Lemma isim_fit new sv i s : wf s -> (i < length (h_ip s))%nat -> isim i (r_ifit new sv i) s (ip_fit_run new sv (ip_val s i))
  (fun s' r => IQ i s s' r /\ (ri_init (ip_at s i) <> None -> ri_init (ip_at s' i) = ri_init (ip_at s i)) /\ (r = Ok tt -> fresh_ifit i s s' /\ fresh_iparam i s s')).
Proof.
  intros W Hi; unfold r_ifit; apply isim_read; unfold ip_fit_run.
  apply (isim_then i _ (r_ifit_tail new sv i) s _ (ip_fit_tail new sv) (fun s' r => IQ i s s' r /\ ri_fit (ip_at s' i) = ri_fit (ip_at s i) /\ (ri_init (ip_at s i) <> None -> ri_init (ip_at s' i) = ri_init (ip_at s i)))); [|intros s' r Hr (A & _ & B); split; [exact A|split; [exact B|congruence]]|].
  { assert (Ii : ip_init (ip_val s i) = option_map (surf_val s) (ri_init (ip_at s i))) by reflexivity.
    rewrite Ii; destruct (ri_init (ip_at s i)) eqn:Er; cbn [option_map]; [|eapply isim_weaken; [apply isim_init; assumption|intros s' r (A & B & _); split; [exact A|split; [exact B|congruence]]]].
    split; [exact W|]; split; [apply iframe_refl|]; split; [reflexivity|]; split; [reflexivity|split; [apply IQ_same; reflexivity|split; [reflexivity|intros _; exact Er]]]. }
  intros s1 W1 B1 V1 O1 (A1 & F1 & J1); assert (Hi1 : (i < length (h_ip s1))%nat) by (rewrite (iframe_len _ _ _ B1); exact Hi).
  rewrite <- V1; eapply isim_more; [apply isim_tail; assumption|]; intros s2 r W2 B2 (A2 & J2 & F2); split; [eapply (IQ_trans i s s1 s2 (Ok tt)); eauto|]; split; [intros Hn; rewrite J2; exact (J1 Hn)|].
  intros Hr; destruct (F2 Hr) as [Fa Fb]; split; [|exact (fresh_iparam_r _ _ _ _ (proj1 B1) Fb)].
  destruct Fa as (k & j & E1 & E2 & N & E3); exists k, j; split; [exact E1|]; split; [exact E2|]; split; [exact (new_surf_r _ _ _ _ (proj1 B1) N)|exact E3].
Qed.
End Ref.
