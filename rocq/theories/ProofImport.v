(** Imports: fuel, footprints, and exploration of the states a process can reach. *)
From Coq Require Import String FMapPositive.
From Verif Require Import Py PyLemmas ModelImport.
Open Scope list_scope.

(** * More fuel changes nothing *)
Definition extends (a b : imports) : Prop :=
  forall st p, snd (a st p) <> Diverge -> b st p = a st p.

Section Mono.
Variables (S0 : list (path * source)) (O0 : path -> bool) (a b : imports).
Hypothesis ab : extends a b.

Lemma from_name_mono here q st n :
  snd (from_name S0 O0 a here q st n) <> Diverge ->
  from_name S0 O0 b here q st n = from_name S0 O0 a here q st n.
Proof.
  unfold from_name. intros H.
  destruct (O0 q); [reflexivity|]. destruct (loaded st q); [|reflexivity].
  destruct (mem n l); [reflexivity|].
  destruct (lookup S0 q) as [[|?]|]; try reflexivity.
  destruct (lookup S0 (q ++ [n])); [|reflexivity].
  rewrite ab; [reflexivity|]. intros D.
  destruct (a st (q ++ [n])) as [st' r]; cbn in D; subst; now apply H.
Qed.
Lemma from_names_mono here q l : forall st,
  snd (from_names S0 O0 a here q st l) <> Diverge ->
  from_names S0 O0 b here q st l = from_names S0 O0 a here q st l.
Proof.
  induction l as [|n t IH]; intros st H; cbn in *; [reflexivity|].
  assert (E : from_name S0 O0 b here q st n = from_name S0 O0 a here q st n).
  { apply from_name_mono. intros D. destruct (from_name S0 O0 a here q st n) as [st' r].
    cbn in D; subst; now apply H. }
  rewrite E. destruct (from_name S0 O0 a here q st n) as [st' [u|e|]]; auto.
Qed.
Lemma imp_then here q st l :
  (snd (match a st q with (s, Ok _) => from_names S0 O0 a here q s l | (s, r) => (s, r) end)
   <> Diverge) ->
  match b st q with (s, Ok _) => from_names S0 O0 b here q s l | (s, r) => (s, r) end =
  match a st q with (s, Ok _) => from_names S0 O0 a here q s l | (s, r) => (s, r) end.
Proof.
  intros H. rewrite ab.
  - destruct (a st q) as [s [u|e|]]; try reflexivity. now apply from_names_mono.
  - intros D. destruct (a st q) as [s r]; cbn in D; subst; now apply H.
Qed.
Lemma exec_mono here st s :
  snd (exec S0 O0 a here st s) <> Diverge ->
  exec S0 O0 b here st s = exec S0 O0 a here st s.
Proof.
  destruct s; cbn; intros H; try reflexivity; try (now apply imp_then).
  rewrite ab; [reflexivity|]. intros D.
  destruct (a st p) as [s r]; cbn in D; subst; now apply H.
Qed.
Lemma exec_all_mono here l : forall st,
  snd (exec_all S0 O0 a here st l) <> Diverge ->
  exec_all S0 O0 b here st l = exec_all S0 O0 a here st l.
Proof.
  induction l as [|s t IH]; intros st H; cbn in *; [reflexivity|].
  assert (E : exec S0 O0 b here st s = exec S0 O0 a here st s).
  { apply exec_mono. intros D. destruct (exec S0 O0 a here st s) as [st' r].
    cbn in D; subst; now apply H. }
  rewrite E. destruct (exec S0 O0 a here st s) as [st' [u|e|]]; auto.
Qed.
Lemma load_mono st p :
  snd (load S0 O0 a st p) <> Diverge -> load S0 O0 b st p = load S0 O0 a st p.
Proof.
  unfold load. destruct (lookup S0 p) as [src|]; [|reflexivity].
  intros H. rewrite exec_all_mono; [reflexivity|]. intros D.
  destruct (exec_all S0 O0 a p (store st p (Some module_names))
              match src with Pkg => [] | Mod body => body end) as [s r].
  cbn in D; subst; now apply H.
Qed.
Lemma step_mono : extends (import_step S0 O0 a) (import_step S0 O0 b).
Proof.
  intros st p. unfold import_step. destruct (O0 p); [reflexivity|].
  destruct (loaded st p); [reflexivity|].
  destruct (parent p) as [|x q]; [apply load_mono|].
  intros H. rewrite ab.
  - destruct (a st (x :: q)) as [s [u|e|]]; try reflexivity. now apply load_mono.
  - intros D. destruct (a st (x :: q)) as [s r]; cbn in D; subst; now apply H.
Qed.
End Mono.

Lemma fuel_mono S0 O0 k : extends (import_module S0 O0 k) (import_module S0 O0 (S k)).
Proof.
  induction k as [|k IH].
  - intros st p H. now elim H.
  - apply step_mono, IH.
Qed.
Lemma fuel_more S0 O0 k j :
  (k <= j)%nat -> extends (import_module S0 O0 k) (import_module S0 O0 j).
Proof.
  induction 1 as [|j L IH]; [now intros st p|].
  intros st p H. rewrite (fuel_mono S0 O0 j); auto. rewrite IH; auto.
Qed.

(** * Tables of modules *)
Lemma path_eqb_true p : forall q, path_eqb p q = true -> p = q.
Proof.
  induction p as [|x p IH]; intros [|y q] H; cbn in H; try discriminate; [reflexivity|].
  apply andb_prop in H as [A B]. apply String.eqb_eq in A. subst. f_equal. auto.
Qed.
Lemma path_eqb_refl p : path_eqb p p = true.
Proof. induction p as [|x p IH]; cbn; [reflexivity|]. now rewrite String.eqb_refl, IH. Qed.
Lemma path_eqb_sym p q : path_eqb p q = path_eqb q p.
Proof.
  destruct (path_eqb p q) eqn:E, (path_eqb q p) eqn:F; try reflexivity.
  - apply path_eqb_true in E. subst. now rewrite path_eqb_refl in F.
  - apply path_eqb_true in F. subst. now rewrite path_eqb_refl in E.
Qed.
Lemma lookup_store st p e q :
  lookup (store st p e) q =
  match lookup st q with
  | None => None
  | Some x => if path_eqb p q then Some e else Some x
  end.
Proof.
  induction st as [|[k x] st IH]; [reflexivity|]. cbn.
  destruct (path_eqb k p) eqn:E; cbn.
  - apply path_eqb_true in E. subst. destruct (path_eqb p q); [reflexivity|exact IH].
  - destruct (path_eqb k q) eqn:F; [|exact IH]. apply path_eqb_true in F. subst.
    now rewrite path_eqb_sym, E.
Qed.
Lemma keys_store st p e : map fst (store st p e) = map fst st.
Proof.
  unfold store. rewrite map_map. apply map_ext. intros [k x]. cbn.
  destruct (path_eqb k p) eqn:E; [|reflexivity]. now rewrite (path_eqb_true _ _ E).
Qed.
Lemma lookup_none (st : modules) q : ~ In q (map fst st) -> lookup st q = None.
Proof.
  induction st as [|[k x] st IH]; intros H; [reflexivity|]. cbn in *.
  destruct (path_eqb k q) eqn:E; [|now apply IH; tauto].
  apply path_eqb_true in E. subst. now elim H; left.
Qed.
Lemma lookup_in_keys (st : modules) q : In q (map fst st) -> exists x, lookup st q = Some x.
Proof.
  induction st as [|[k x] st IH]; intros H; [destruct H|]. cbn in *.
  destruct (path_eqb k q) eqn:E; [now exists x|]. destruct H as [H|H]; [|auto].
  subst. now rewrite path_eqb_refl in E.
Qed.
Lemma modules_ext (s : modules) : forall t, map fst s = map fst t -> NoDup (map fst s) ->
  (forall q, lookup s q = lookup t q) -> s = t.
Proof.
  induction s as [|[k x] s IH]; intros [|[k' y] t] K N H; cbn in K; try discriminate; [reflexivity|].
  injection K as <- K. inversion N; subst. pose proof (H k) as E. cbn in E.
  rewrite path_eqb_refl in E. injection E as <-. f_equal. apply IH; auto. intros q.
  specialize (H q). cbn in H. destruct (path_eqb k q) eqn:F; [|exact H].
  apply path_eqb_true in F. subst. rewrite !lookup_none; auto. now rewrite <- K.
Qed.

(** * An import reads and writes only its footprint *)
Section Frame.
Variables (S0 : list (path * source)) (O0 : path -> bool) (D : list path).
Definition inb (p : path) (l : list path) : bool := existsb (path_eqb p) l.
Lemma inb_in p l : inb p l = true -> In p l.
Proof.
  intros H. apply existsb_exists in H as (q & I & E). apply path_eqb_true in E. now subst.
Qed.
Definition names_in (q : path) (ns : list string) : bool :=
  forallb (fun n => match lookup S0 (q ++ [n]) with None => true | Some _ => inb (q ++ [n]) D end) ns.
Definition reachable_in (q : path) : bool := O0 q || inb q D.
Definition stmt_in (here : path) (s : stmt) : bool :=
  match s with
  | Import p _ => reachable_in p
  | From p ns => reachable_in p && names_in p ns
  | FromHere p ns => reachable_in (parent here ++ p) && names_in (parent here ++ p) ns
  | _ => true
  end.
Definition footprint : bool :=
  forallb (fun p =>
    inb (parent p) D &&
    match lookup S0 p with Some (Mod body) => forallb (stmt_in p) body | _ => true end) D.
Hypothesis FP : footprint = true.

Definition agree (s t : modules) : Prop :=
  map fst s = map fst t /\ forall q, In q D -> lookup s q = lookup t q.
Definition frame (s t : modules) : Prop :=
  map fst s = map fst t /\ forall q, ~ In q D -> lookup s q = lookup t q.
Definition same (s t : modules) (a b : modules * res unit) : Prop :=
  snd a = snd b /\ agree (fst a) (fst b) /\ frame s (fst a) /\ frame t (fst b).
Definition local (imp : imports) : Prop := forall p s t,
  reachable_in p = true -> agree s t -> same s t (imp s p) (imp t p).

Lemma frame_refl s : frame s s.
Proof. now split. Qed.
Lemma frame_trans a b c : frame a b -> frame b c -> frame a c.
Proof. intros [A B] [A' B']. split; [congruence|]. intros q H. rewrite B; auto. Qed.
Lemma same_ret s t r : agree s t -> same s t (s, r) (t, r).
Proof. intros H. split; [reflexivity|]. split; [exact H|]. split; apply frame_refl. Qed.
Lemma same_trans s t s' t' a b :
  frame s s' -> frame t t' -> same s' t' a b -> same s t a b.
Proof.
  intros F G (A & B & C & E). split; [exact A|]. split; [exact B|].
  split; eapply frame_trans; eassumption.
Qed.
Lemma agree_loaded s t q : agree s t -> In q D -> loaded s q = loaded t q.
Proof. intros [_ A] I. unfold loaded. now rewrite (A q I). Qed.
Lemma store_agree s t p e : agree s t -> agree (store s p e) (store t p e).
Proof.
  intros [K A]. split; [now rewrite !keys_store|]. intros q I. now rewrite !lookup_store, A.
Qed.
Lemma store_frame s p e : In p D -> frame s (store s p e).
Proof.
  intros I. split; [now rewrite keys_store|]. intros q N. rewrite lookup_store.
  destruct (lookup s q); [|reflexivity]. destruct (path_eqb p q) eqn:E; [|reflexivity].
  apply path_eqb_true in E. now subst.
Qed.
Lemma bind_agree s t p x : agree s t -> In p D -> agree (bind_name s p x) (bind_name t p x).
Proof.
  intros A I. unfold bind_name. rewrite (agree_loaded s t p A I).
  destruct (loaded t p); [now apply store_agree|exact A].
Qed.
Lemma bind_frame s p x : In p D -> frame s (bind_name s p x).
Proof.
  intros I. unfold bind_name. destruct (loaded s p); [now apply store_frame|apply frame_refl].
Qed.
Lemma same_bind s t p x : agree s t -> In p D ->
  same s t (bind_name s p x, Ok tt) (bind_name t p x, Ok tt).
Proof.
  intros A I. split; [reflexivity|]. split; [now apply bind_agree|].
  split; now apply bind_frame.
Qed.
Lemma same_then s t a b (f : modules -> modules * res unit) :
  same s t a b ->
  (forall s' t', agree s' t' -> same s' t' (f s') (f t')) ->
  same s t (match a with (s', Ok _) => f s' | (s', r) => (s', r) end)
           (match b with (t', Ok _) => f t' | (t', r) => (t', r) end).
Proof.
  intros (E & A & F & G) H. destruct a as [s' r], b as [t' r']. cbn in *. subst r'.
  destruct r as [u|e|].
  - eapply same_trans; eauto.
  - split; [reflexivity|]. now split.
  - split; [reflexivity|]. now split.
Qed.

Section Exec.
Variable imp : imports.
Hypothesis L : local imp.

Lemma from_name_local here q n s t :
  In here D -> reachable_in q = true -> names_in q [n] = true -> agree s t ->
  same s t (from_name S0 O0 imp here q s n) (from_name S0 O0 imp here q t n).
Proof.
  intros I R N A. unfold from_name. unfold reachable_in in R.
  destruct (O0 q); [now apply same_bind|]. apply inb_in in R.
  rewrite (agree_loaded s t q A R). destruct (loaded t q) as [e|]; [|now apply same_ret].
  destruct (mem n e); [now apply same_bind|].
  destruct (lookup S0 q) as [[|body]|]; try now apply same_ret.
  cbn in N. destruct (lookup S0 (q ++ [n])); [|now apply same_ret].
  apply same_then; [|intros; now apply same_bind].
  apply L; [|exact A]. unfold reachable_in. rewrite andb_true_r in N. rewrite N. apply orb_true_r.
Qed.
Lemma from_names_local here q l : In here D -> reachable_in q = true -> names_in q l = true ->
  forall s t, agree s t ->
  same s t (from_names S0 O0 imp here q s l) (from_names S0 O0 imp here q t l).
Proof.
  intros I R. induction l as [|n l IH]; intros N s t A; [now apply same_ret|].
  cbn in N. apply andb_prop in N as [N N']. cbn.
  apply same_then with (f := fun st => from_names S0 O0 imp here q st l).
  - apply from_name_local; auto. cbn. now rewrite N.
  - intros. now apply IH.
Qed.
Lemma fold_bind here l : In here D -> forall s t, agree s t ->
  agree (fold_left (fun st x => bind_name st here x) l s)
        (fold_left (fun st x => bind_name st here x) l t) /\
  frame s (fold_left (fun st x => bind_name st here x) l s).
Proof.
  intros I. induction l as [|x l IH]; intros s t A; cbn; [split; [exact A|apply frame_refl]|].
  destruct (IH (bind_name s here x) (bind_name t here x)) as [B C]; [now apply bind_agree|].
  split; [exact B|]. eapply frame_trans; [|exact C]. now apply bind_frame.
Qed.
Lemma exec_local here s t x : In here D -> stmt_in here x = true -> agree s t ->
  same s t (exec S0 O0 imp here s x) (exec S0 O0 imp here t x).
Proof.
  intros I X A. destruct x; cbn in X; cbn.
  - apply same_then with (f := fun st => (bind_name st here as_, Ok tt)); [now apply L|].
    intros. now apply same_bind.
  - apply andb_prop in X as [R N].
    apply same_then with (f := fun st => from_names S0 O0 imp here p st names); [now apply L|].
    intros. now apply from_names_local.
  - apply andb_prop in X as [R N].
    apply same_then with (f := fun st => from_names S0 O0 imp here (parent here ++ p) st names);
      [now apply L|]. intros. now apply from_names_local.
  - rewrite (agree_loaded s t here A I). now apply same_ret.
  - rewrite (agree_loaded s t here A I).
    destruct (define match loaded t here with Some e => e | None => [] end [] m) as [l|e|];
      try now apply same_ret.
    assert (A' : agree t s) by (destruct A as [K A]; split; [congruence|]; intros; symmetry; auto).
    destruct (fold_bind here l I s t A) as [B C]. destruct (fold_bind here l I t s A') as [_ C'].
    now split.
Qed.
Lemma exec_all_local here l : In here D -> forallb (stmt_in here) l = true ->
  forall s t, agree s t ->
  same s t (exec_all S0 O0 imp here s l) (exec_all S0 O0 imp here t l).
Proof.
  intros I. induction l as [|x l IH]; intros X s t A; [now apply same_ret|].
  cbn in X. apply andb_prop in X as [X X']. cbn.
  apply same_then with (f := fun st => exec_all S0 O0 imp here st l).
  - now apply exec_local.
  - intros. now apply IH.
Qed.
Lemma step_local : local (import_step S0 O0 imp).
Proof.
  intros p s t R A. unfold import_step. unfold reachable_in in R.
  destruct (O0 p); [now apply same_ret|]. apply inb_in in R.
  rewrite (agree_loaded s t p A R). destruct (loaded t p); [now apply same_ret|].
  pose proof FP as F. unfold footprint in F. rewrite forallb_forall in F. specialize (F p R).
  apply andb_prop in F as [Q F]. pose proof (inb_in _ _ Q) as IQ.
  assert (LL : forall s t, agree s t -> same s t (load S0 O0 imp s p) (load S0 O0 imp t p)).
  { clear s t A. intros s t A. unfold load. destruct (lookup S0 p) as [src|]; [|now apply same_ret].
    assert (B : forallb (stmt_in p) match src with Pkg => [] | Mod body => body end = true)
      by (destruct src; [reflexivity|exact F]).
    pose proof (exec_all_local p _ R B _ _ (store_agree s t p (Some module_names) A)) as (E & G & H1 & H2).
    destruct (exec_all S0 O0 imp p (store s p (Some module_names))
                match src with Pkg => [] | Mod body => body end) as [s' r].
    destruct (exec_all S0 O0 imp p (store t p (Some module_names))
                match src with Pkg => [] | Mod body => body end) as [t' r'].
    cbn in *. subst r'.
    assert (F1 : frame s s') by (eapply frame_trans; [apply store_frame, R|exact H1]).
    assert (F2 : frame t t') by (eapply frame_trans; [apply store_frame, R|exact H2]).
    destruct r as [u|e|]; (eapply same_trans; [exact F1|exact F2|]).
    - now apply same_bind.
    - split; [reflexivity|]. split; [now apply store_agree|]. split; now apply store_frame.
    - split; [reflexivity|]. split; [now apply store_agree|]. split; now apply store_frame. }
  destruct (parent p) as [|y q] eqn:E; [now apply LL|].
  apply same_then with (f := fun st => load S0 O0 imp st p); [|exact LL].
  apply L; [|exact A]. unfold reachable_in. rewrite Q. apply orb_true_r.
Qed.
End Exec.

Lemma import_local n : local (import_module S0 O0 n).
Proof.
  induction n as [|n IH].
  - intros p s t R A. now apply same_ret.
  - now apply step_local.
Qed.
End Frame.

(** * The part of a state an import can see *)
Definition mask (D : list path) (st : modules) : modules :=
  map (fun x => (fst x, if inb (fst x) D then snd x else None)) st.
Lemma in_inb p l : In p l -> inb p l = true.
Proof. intros H. apply existsb_exists. exists p. split; [exact H|apply path_eqb_refl]. Qed.
Lemma mask_keys D st : map fst (mask D st) = map fst st.
Proof. unfold mask. rewrite map_map. now apply map_ext. Qed.
Lemma lookup_mask D st q :
  lookup (mask D st) q =
  match lookup st q with None => None | Some x => Some (if inb q D then x else None) end.
Proof.
  induction st as [|[k x] st IH]; [reflexivity|]. cbn. destruct (path_eqb k q) eqn:E; [|exact IH].
  apply path_eqb_true in E. now subst.
Qed.
Lemma mask_ext D s t : map fst s = map fst t -> NoDup (map fst s) ->
  (forall q, In q D -> In q (map fst s) -> lookup s q = lookup t q) -> mask D s = mask D t.
Proof.
  intros K N H. apply modules_ext; rewrite ?mask_keys; auto.
  assert (Q : forall q, {In q (map fst s)} + {~ In q (map fst s)})
    by (intros q; apply in_dec, list_eq_dec, string_dec).
  intros q. rewrite !lookup_mask. destruct (Q q) as [I|I].
  - destruct (inb q D) eqn:E; [now rewrite (H q (inb_in _ _ E) I)|].
    destruct (lookup s q) eqn:F, (lookup t q) eqn:G; auto.
    + rewrite K in I. apply lookup_in_keys in I as [x I]. congruence.
    + apply lookup_in_keys in I as [x I]. congruence.
  - rewrite (lookup_none s q I). rewrite K in I. now rewrite (lookup_none t q I).
Qed.
Lemma mask_agree D s : agree D s (mask D s).
Proof.
  split; [now rewrite mask_keys|]. intros q I. rewrite lookup_mask, (in_inb _ _ I).
  now destruct (lookup s q).
Qed.
Definition merge (s t : modules) : modules :=
  map (fun xy => (fst (fst xy), match snd (fst xy) with Some e => Some e | None => snd (snd xy) end))
    (combine s t).
Lemma mask_app D E st : mask (D ++ E) st = merge (mask D st) (mask E st).
Proof.
  induction st as [|[k x] st IH]; [reflexivity|]. cbn. unfold merge in IH.
  f_equal; [|exact IH]. unfold inb. rewrite existsb_app.
  destruct (existsb (path_eqb k) D), (existsb (path_eqb k) E), x; reflexivity.
Qed.

(** * Exploration *)
Definition entry_eqb (a b : option (list string)) : bool :=
  match a, b with
  | None, None => true
  | Some x, Some y => path_eqb x y
  | _, _ => false
  end.
Fixpoint modules_eqb (a b : modules) : bool :=
  match a, b with
  | [], [] => true
  | (p, x) :: a, (q, y) :: b => entry_eqb x y && path_eqb p q && modules_eqb a b
  | _, _ => false
  end.
Lemma modules_eqb_true a : forall b, modules_eqb a b = true -> a = b.
Proof.
  induction a as [|[p x] a IH]; intros [|[q y] b] H; cbn in H; try discriminate; [reflexivity|].
  apply andb_prop in H as [H C]. apply andb_prop in H as [A B].
  apply path_eqb_true in B. subst. f_equal; auto. f_equal.
  destruct x, y; cbn in A; try discriminate; auto. now rewrite (path_eqb_true _ _ A).
Qed.

Definition key (st : modules) : positive :=
  fold_left (fun k x => match snd x with Some _ => xI k | None => xO k end) st xH.
Definition table := PositiveMap.t (list modules).
Definition known (t : table) (st : modules) : bool :=
  match PositiveMap.find (key st) t with
  | Some l => existsb (fun x => modules_eqb x st) l
  | None => false
  end.
Definition insert (t : table) (st : modules) : table :=
  PositiveMap.add (key st)
    (st :: match PositiveMap.find (key st) t with Some l => l | None => [] end) t.

Section Explore.
Variable next : modules -> path -> modules.
Variable all : list path.
Fixpoint visit (l : list modules) (t : table) (acc : list modules) : table * list modules :=
  match l with
  | [] => (t, acc)
  | s :: l => if known t s then visit l t acc else visit l (insert t s) (s :: acc)
  end.
Fixpoint explore (n : nat) (t : table) (front : list modules) : table :=
  match n with
  | O => t
  | S n => match front with
           | [] => t
           | _ => let '(t, fr) := visit (flat_map (fun s => map (next s) all) front) t [] in
                  explore n t fr
           end
  end.
End Explore.

Lemma known_in t st :
  known t st = true -> exists k l, In (k, l) (PositiveMap.elements t) /\ In st l.
Proof.
  unfold known. destruct (PositiveMap.find (key st) t) as [l|] eqn:E; [|discriminate].
  intros H. apply existsb_exists in H as (x & I & D).
  apply modules_eqb_true in D. subst.
  exists (key st), l. split; [now apply PositiveMap.elements_correct|exact I].
Qed.

Definition outcome_eqb (a b : res unit) : bool :=
  match a, b with
  | Ok _, Ok _ => true
  | Err x, Err y => if (fun x y : exn => ltac:(decide equality) : {x = y} + {x <> y}) x y
                    then true else false
  | _, _ => false
  end.
Lemma outcome_eqb_true a b : outcome_eqb a b = true -> a = b /\ a <> Diverge.
Proof.
  destruct a as [[]|x|], b as [[]|y|]; cbn; try discriminate; intros H.
  - now split.
  - match type of H with (if ?c then _ else _) = _ => destruct c end;
      [subst; now split|discriminate].
Qed.

(** A class of modules with the same footprint [D]; [reps] are the states they
    may be imported in, as far as [D] shows. *)
Section Class.
Variables (S0 : list (path * source)) (O0 : path -> bool) (fuel : nat).
Variable expected : path -> res unit.
Variables (D : list path) (ms : list path).
Definition class_ok (reps : list modules) (keep : modules -> bool) : bool :=
  forallb (fun st => forallb (fun p =>
    let '(st', r) := import_module S0 O0 fuel st p in
    keep st' && outcome_eqb r (expected p)) ms) reps.
Hypothesis FP : footprint S0 O0 D = true.
Hypothesis MS : forallb (fun p => inb p D) ms = true.

Lemma class_step reps keep st p :
  class_ok reps keep = true -> In (mask D st) reps -> In p ms ->
  NoDup (map fst st) ->
  let st' := fst (import_module S0 O0 fuel st p) in
  exists rep', keep rep' = true /\
    snd (import_module S0 O0 fuel st p) = expected p /\ expected p <> Diverge /\
    map fst st' = map fst st /\
    (forall E, (forall q, In q E -> In q D) -> mask E st' = mask E rep') /\
    (forall E, (forall q, In q E -> In q (map fst st) -> ~ In q D) -> mask E st' = mask E st).
Proof.
  intros C I J N. cbn zeta. unfold class_ok in C. rewrite forallb_forall in C.
  specialize (C _ I). cbn in C. rewrite forallb_forall in C. specialize (C _ J). cbn in C.
  rewrite forallb_forall in MS. pose proof (MS _ J) as M.
  assert (R : reachable_in O0 D p = true) by (unfold reachable_in; rewrite M; apply orb_true_r).
  destruct (import_local S0 O0 D FP fuel p st (mask D st) R (mask_agree D st))
    as (E & [K A] & [K' F] & _).
  destruct (import_module S0 O0 fuel (mask D st) p) as [rep' r]. exists rep'. cbn in *.
  apply andb_prop in C as [C1 C2]. apply outcome_eqb_true in C2 as [C2 C3].
  repeat split; auto; try congruence.
  - intros G H. apply mask_ext; auto; try congruence.
  - intros G H. apply mask_ext; auto; try congruence.
    intros q Hq Hk. symmetry. apply F. rewrite <- K' in Hk. auto.
Qed.
End Class.

(** * Three groups of modules, and a few modules [mX] that use the first two and
    are never loaded *)
Section Groups.
Variables (S0 : list (path * source)) (O0 : path -> bool) (fuel : nat).
Variable expected : path -> res unit.
Variables (DA DB DC : list path) (mA mB mX mC : list path).
Definition explored (ms : list path) : table :=
  let s := nothing_loaded S0 in
  explore (fun st p => fst (import_module S0 O0 fuel st p)) ms 40
    (insert (PositiveMap.empty _) s) [s].
Definition states (t : table) : list modules := flat_map snd (PositiveMap.elements t).
Definition keys : list path := map fst S0.
Fixpoint nodupb (l : list path) : bool :=
  match l with [] => true | x :: l => negb (inb x l) && nodupb l end.
Definition apart (D E : list path) : bool :=
  forallb (fun q => negb (inb q keys) || negb (inb q D)) E.
Definition subset (D E : list path) : bool := forallb (fun q => inb q E) D.
Definition groups_ok : bool :=
  let tA := explored mA in
  let tB := explored mB in
  let tC := explored mC in
  nodupb keys &&
  footprint S0 O0 DA && footprint S0 O0 DB && footprint S0 O0 DC &&
  footprint S0 O0 ((DA ++ DB) ++ mX) &&
  subset mA DA && subset mB DB && subset mC DC && subset mX ((DA ++ DB) ++ mX) &&
  apart DA DB && apart DA DC && apart DB DA && apart DB DC && apart DC DA && apart DC DB &&
  apart DA mX && apart DB mX && apart DC mX && apart mX DC &&
  subset keys (mA ++ mB ++ mX ++ mC) &&
  known tA (nothing_loaded S0) && known tB (nothing_loaded S0) && known tC (nothing_loaded S0) &&
  class_ok S0 O0 fuel expected mA (states tA) (fun st => known tA (mask DA st)) &&
  class_ok S0 O0 fuel expected mB (states tB) (fun st => known tB (mask DB st)) &&
  class_ok S0 O0 fuel expected mC (states tC) (fun st => known tC (mask DC st)) &&
  class_ok S0 O0 fuel expected mX
    (flat_map (fun a => map (merge a) (states tB)) (states tA))
    (fun st => known tA (mask DA st) && known tB (mask DB st) &&
               modules_eqb (mask mX st) (nothing_loaded S0)).
Definition good (st : modules) : Prop :=
  map fst st = keys /\ known (explored mA) (mask DA st) = true /\
  known (explored mB) (mask DB st) = true /\ known (explored mC) (mask DC st) = true /\
  mask mX st = nothing_loaded S0.

Lemma states_in t st : known t st = true -> In st (states t).
Proof.
  intros H. apply known_in in H as (k & l & I & J). apply in_flat_map. now exists (k, l).
Qed.
Lemma nodupb_true l : nodupb l = true -> NoDup l.
Proof.
  induction l as [|x l IH]; intros H; constructor; cbn in H; apply andb_prop in H as [A B].
  - intros I. apply in_inb in I. now rewrite I in A.
  - auto.
Qed.
Lemma subset_in D E : subset D E = true -> forall q, In q D -> In q E.
Proof. intros H q I. unfold subset in H. rewrite forallb_forall in H. apply inb_in, H, I. Qed.
Lemma apart_in D E : apart D E = true -> forall q, In q E -> In q keys -> ~ In q D.
Proof.
  intros H q I J K. unfold apart in H. rewrite forallb_forall in H. specialize (H q I).
  now rewrite (in_inb _ _ J), (in_inb _ _ K) in H.
Qed.
Lemma mask_none D : mask D (nothing_loaded S0) = nothing_loaded S0.
Proof.
  unfold mask, nothing_loaded. rewrite map_map. apply map_ext. intros [p s]. cbn.
  now destruct (inb p D).
Qed.

Lemma merge_none st : map fst st = keys -> merge st (nothing_loaded S0) = st.
Proof.
  unfold keys, nothing_loaded, merge. generalize S0. induction st as [|[k x] st IH];
    intros [|[k' y] l] H; cbn in *; try discriminate; [reflexivity|].
  injection H as -> H. rewrite IH by exact H. now destruct x.
Qed.

Hypothesis OK : groups_ok = true.
Lemma good_start : good (nothing_loaded S0).
Proof.
  unfold groups_ok in OK. cbn zeta in OK. repeat (apply andb_prop in OK as [OK ?]).
  unfold good. rewrite !mask_none. split; [|now repeat split].
  unfold nothing_loaded, keys. rewrite map_map. now apply map_ext.
Qed.
Lemma good_step st p : good st -> In p keys ->
  good (fst (import_module S0 O0 fuel st p)) /\
  snd (import_module S0 O0 fuel st p) = expected p /\
  snd (import_module S0 O0 fuel st p) <> Diverge.
Proof.
  intros (K & GA & GB & GC & GX) I.
  unfold groups_ok in OK. cbn zeta in OK. repeat (apply andb_prop in OK as [OK ?]).
  assert (N : NoDup (map fst st)) by (rewrite K; now apply nodupb_true).
  assert (J : In p (mA ++ mB ++ mX ++ mC)) by (eapply subset_in; eassumption).
  apply in_app_or in J as [J|J]; [|apply in_app_or in J as [J|J]; [|apply in_app_or in J as [J|J]]].
  - destruct (class_step S0 O0 fuel expected DA mA ltac:(assumption) ltac:(assumption)
                _ _ st p ltac:(eassumption) (states_in _ _ GA) J N)
      as (r & C & E & F & K' & In' & Out).
    split; [|split; [exact E|now rewrite E]]. split; [congruence|].
    rewrite (In' DA) by auto. rewrite (Out DB), (Out DC), (Out mX); auto;
      intros q Q1 Q2; rewrite K in Q2; revert q Q1 Q2; now apply apart_in.
  - destruct (class_step S0 O0 fuel expected DB mB ltac:(assumption) ltac:(assumption)
                _ _ st p ltac:(eassumption) (states_in _ _ GB) J N)
      as (r & C & E & F & K' & In' & Out).
    split; [|split; [exact E|now rewrite E]]. split; [congruence|].
    rewrite (In' DB) by auto. rewrite (Out DA), (Out DC), (Out mX); auto;
      intros q Q1 Q2; rewrite K in Q2; revert q Q1 Q2; now apply apart_in.
  - assert (R : In (mask ((DA ++ DB) ++ mX) st)
                  (flat_map (fun a => map (merge a) (states (explored mB))) (states (explored mA)))).
    { rewrite mask_app, GX, merge_none by (now rewrite mask_keys).
      rewrite mask_app. apply in_flat_map. exists (mask DA st). split; [now apply states_in|].
      apply in_map. now apply states_in. }
    destruct (class_step S0 O0 fuel expected ((DA ++ DB) ++ mX) mX ltac:(assumption) ltac:(assumption)
                _ _ st p ltac:(eassumption) R J N)
      as (r & C & E & F & K' & In' & Out).
    apply andb_prop in C as [C C3]. apply andb_prop in C as [C1 C2].
    apply modules_eqb_true in C3.
    split; [|split; [exact E|now rewrite E]]. split; [congruence|].
    rewrite (In' DA) by (intros; rewrite !in_app_iff; auto).
    rewrite (In' DB) by (intros; rewrite !in_app_iff; auto).
    rewrite (In' mX) by (intros; rewrite !in_app_iff; auto).
    rewrite (Out DC); [now repeat split|]. intros q Q1 Q2 Q3. rewrite K in Q2.
    rewrite !in_app_iff in Q3. destruct Q3 as [[Q3|Q3]|Q3]; revert q Q1 Q2 Q3; now apply apart_in.
  - destruct (class_step S0 O0 fuel expected DC mC ltac:(assumption) ltac:(assumption)
                _ _ st p ltac:(eassumption) (states_in _ _ GC) J N)
      as (r & C & E & F & K' & In' & Out).
    split; [|split; [exact E|now rewrite E]]. split; [congruence|].
    rewrite (In' DC) by auto. rewrite (Out DA), (Out DB), (Out mX); auto;
      intros q Q1 Q2; rewrite K in Q2; revert q Q1 Q2; now apply apart_in.
Qed.
Lemma good_run n l : (fuel <= n)%nat -> Forall (fun p => In p keys) l ->
  good (after S0 O0 n (nothing_loaded S0) l).
Proof.
  intros L F. unfold after. pose proof good_start as G. revert G.
  generalize (nothing_loaded S0). induction F as [|p l I F IH]; intros st G; cbn; auto.
  apply IH. destruct (good_step st p G I) as (A & _ & E).
  now rewrite (fuel_more S0 O0 fuel n L st p E).
Qed.
Lemma good_outcome n l p : (fuel <= n)%nat -> Forall (fun p => In p keys) l -> In p keys ->
  snd (import_module S0 O0 n (after S0 O0 n (nothing_loaded S0) l) p) = expected p.
Proof.
  intros L F I. destruct (good_step _ p (good_run n l L F) I) as (_ & B & E).
  now rewrite (fuel_more S0 O0 fuel n L _ p E).
Qed.
End Groups.

(** * The project *)
(** A table of outcomes, one per module. *)
Definition per_table (tbl : list (path * res unit)) (p : path) : res unit :=
  match lookup tbl p with Some r => r | None => Diverge end.
Definition faithful (tbl : list (path * res unit)) : bool :=
  forallb (fun x => outcome_eqb (per_table tbl (fst x)) (snd x)) tbl.
Lemma faithful_in tbl p r : faithful tbl = true -> In (p, r) tbl -> per_table tbl p = r.
Proof.
  intros T J. unfold faithful in T. rewrite forallb_forall in T.
  now destruct (outcome_eqb_true _ _ (T _ J)).
Qed.

Lemma fails_unloaded S0 O0 n st p :
  O0 p = false -> (0 < n)%nat -> snd (import_module S0 O0 n st p) <> Ok tt -> loaded st p = None.
Proof.
  intros O L. destruct n as [|n]; [lia|]. cbn. unfold import_step. rewrite O.
  destruct (loaded st p); [|reflexivity]. intros H. now elim H.
Qed.
