(** The names the packages would have to hold for their modules to be importable. *)
From Coq Require Import String.
From Verif Require Import Py PyLemmas ModelImport SpecImport ProofImport ProofImport2.
Open Scope string_scope.

(** The state in which the package of [p] is imported and holds the names [e]. *)
Definition package_holding (p : path) (e : list string) : modules :=
  store (after project (environment true) 12 (nothing_loaded project) [removelast p]) (removelast p) (Some e).
Definition from_here (n : string) : stmt := FromHere [] [n].
Section Here.
Variables (S0 : list (path * source)) (O0 : path -> bool) (imp : imports) (here : path) (e : list string).
Let q := parent here.
Hypothesis QO : O0 q = false.
Hypothesis QP : lookup S0 q = Some Pkg.
Hypothesis IQ : forall st, loaded st q = Some e -> imp st q = (st, Ok tt).
Hypothesis HQ : path_eqb here q = false.
Lemma bind_other st n : loaded (bind_name st here n) q = loaded st q.
Proof.
  unfold bind_name. destruct (loaded st here) as [x|]; [|reflexivity]. unfold loaded. rewrite lookup_store.
  destruct (lookup st q) as [[y|]|]; try reflexivity; rewrite ?HQ, ?(path_eqb_sym q here), ?HQ; reflexivity.
Qed.
Lemma exec_here rest ns : forall st, loaded st q = Some e -> forallb (fun n => mem n e || match lookup S0 (q ++ [n])%list with None => true | _ => false end) ns = true ->
  if forallb (fun n => mem n e) ns
  then loaded (fold_left (fun st n => bind_name st here n) ns st) q = Some e /\
       exec_all S0 O0 imp here st (map from_here ns ++ rest)%list = exec_all S0 O0 imp here (fold_left (fun st n => bind_name st here n) ns st) rest
  else snd (exec_all S0 O0 imp here st (map from_here ns ++ rest)%list) = Err ImportError.
Proof.
  induction ns as [|n ns IH]; intros st L F; [split; [exact L|reflexivity]|]. cbn [forallb] in F. apply andb_prop in F as [F1 F2].
  cbn [forallb map app exec_all fold_left]. change (from_here n) with (FromHere [] [n]). cbn [exec].
  rewrite app_nil_r. fold q. rewrite (IQ st L). cbn [from_names]. unfold from_name. rewrite QO, L.
  destruct (mem n e); cbn [andb orb] in *.
  - apply (IH (bind_name st here n)); [now rewrite bind_other|exact F2].
  - rewrite QP. destruct (lookup S0 (q ++ [n])%list); [discriminate|reflexivity].
Qed.
End Here.

Section Needs.
Variables (p : path) (pre : list stmt) (names : list string) (ns : list string) (rest : list stmt).
Let S0 := project.
Let O0 := environment true.
Hypothesis PO : O0 p = false.
Hypothesis PB : lookup S0 p = Some (Mod (pre ++ map from_here ns ++ rest)%list).
Hypothesis QO : O0 (parent p) = false.
Hypothesis QN : parent p <> [].
Hypothesis QP : lookup S0 (parent p) = Some Pkg.
Hypothesis HQ : path_eqb p (parent p) = false.
Let start (e : list string) : modules := package_holding p e.
Let st1 e := store (start e) p (Some module_names).
Hypothesis SP : forall e, loaded (start e) p = None.
Hypothesis SQ : forall e, loaded (start e) (parent p) = Some e.
Let imp := import_module S0 O0 11.
Hypothesis PRE : forall e r, exec_all S0 O0 imp p (st1 e) (pre ++ r)%list = exec_all S0 O0 imp p (store (start e) p (Some names)) r.
Hypothesis REST : forall e, snd (exec_all S0 O0 imp p (fold_left (fun st n => bind_name st p n) ns (store (start e) p (Some names))) rest) = Ok tt.
Lemma needed n e : (12 <= n)%nat -> forallb (fun n => mem n e || match lookup S0 (parent p ++ [n])%list with None => true | _ => false end) ns = true -> snd (import_module S0 O0 n (start e) p) = if forallb (fun x => mem x e) ns then Ok tt else Err ImportError.
Proof.
  intros L FN.
  assert (H : snd (import_module S0 O0 12 (start e) p) = if forallb (fun x => mem x e) ns then Ok tt else Err ImportError).
  { change (import_module S0 O0 12) with (import_step S0 O0 imp). unfold import_step. rewrite PO, SP.
    assert (IQ : forall st, loaded st (parent p) = Some e -> imp st (parent p) = (st, Ok tt)).
    { intros st E. unfold imp. change (import_module S0 O0 11) with (import_step S0 O0 (import_module S0 O0 10)). unfold import_step. rewrite QO, E. reflexivity. }
    destruct (parent p) as [|y t] eqn:EP; [now elim QN|]. rewrite (IQ _ (SQ e)). rewrite <- EP in *. unfold load. rewrite PB. fold (st1 e). rewrite PRE.
    assert (L1 : loaded (store (start e) p (Some names)) (parent p) = Some e).
    { unfold loaded. rewrite lookup_store, HQ. specialize (SQ e). unfold loaded in SQ. destruct (lookup (start e) (parent p)) as [[x|]|]; congruence. }
    pose proof (exec_here S0 O0 imp p e QO QP IQ HQ rest ns _ L1 FN) as X.
    destruct (forallb (fun x => mem x e) ns).
    - destruct X as [_ X]. rewrite X. specialize (REST e). destruct (exec_all _ _ _ _ _ rest) as [st r]. cbn [snd] in REST. subst r. reflexivity.
    - destruct (exec_all _ _ _ _ _ _) as [st r]. cbn [snd] in X. subst r. reflexivity. }
  rewrite (fuel_more S0 O0 12 n L); [exact H|]. rewrite H. destruct (forallb (fun x => mem x e) ns); intros X; discriminate X.
Qed.
End Needs.
Ltac need pre names rest := intros L; apply (needed _ pre names _ rest); [reflexivity|reflexivity|reflexivity|discriminate|reflexivity|reflexivity|intros; vm_compute; reflexivity|intros; vm_compute; reflexivity| |intros; vm_compute; reflexivity|exact L|cbn [forallb app]; rewrite ?orb_true_r; try reflexivity].
Lemma needs_text n e : (12 <= n)%nat -> snd (import_module project (environment true) n (package_holding ["fit"; "io"; "text"] e) ["fit"; "io"; "text"]) =
  if forallb (fun x => mem x e) ["np"; "spatial"; "meshio"] then Ok tt else Err ImportError.
Proof. need (@nil stmt) module_names (skipn 3 src_fit_io_text); reflexivity. Qed.
Lemma needs_parameterize n e : (12 <= n)%nat -> snd (import_module project (environment true) n (package_holding ["fit"; "algorithms"; "parameterize"] e) ["fit"; "algorithms"; "parameterize"]) =
  if forallb (fun x => mem x e) ["np"] then Ok tt else Err ImportError.
Proof. need (@nil stmt) module_names (skipn 1 src_fit_algorithms_parameterize); reflexivity. Qed.
Lemma needs_initialization n e : (12 <= n)%nat -> snd (import_module project (environment true) n (package_holding ["fit"; "algorithms"; "initialization"] e) ["fit"; "algorithms"; "initialization"]) =
  if forallb (fun x => mem x e) ["np"; "spline"; "knots"] then Ok tt else Err ImportError.
Proof. need (@nil stmt) module_names (skipn 3 src_fit_algorithms_initialization); reflexivity. Qed.
Lemma needs_base_data n e : (12 <= n)%nat -> snd (import_module project (environment true) n (package_holding ["fit"; "model"; "base_data"] e) ["fit"; "model"; "base_data"]) =
  if forallb (fun x => mem x e) ["spline"; "np"; "knots"; "parameterize"; "fitting"; "fileIO"; "initialization"] then Ok tt else Err ImportError.
Proof. need [From ["abc"] ["ABC"]] ["ABC"; "__file__"] (skipn 8 src_fit_model_base_data).
  intros e0 r. cbn [app]. cbn [exec_all]. match goal with |- match ?x with _ => _ end = _ => assert (E : x = (store (package_holding ["fit"; "model"; "base_data"] e0) ["fit"; "model"; "base_data"] (Some ["ABC"; "__file__"]), Ok tt)) by (vm_compute; reflexivity) end.
  rewrite E. reflexivity.
Qed.
Lemma needs_fitting n e : (12 <= n)%nat -> mem "parameterize" e = true -> mem "initialization" e = true ->
  snd (import_module project (environment true) n (package_holding ["fit"; "algorithms"; "fitting"] e) ["fit"; "algorithms"; "fitting"]) =
  if forallb (fun x => mem x e) ["np"; "basis"; "parameterize"; "spline"; "initialization"] then Ok tt else Err ImportError.
Proof. intros L0 P I; revert L0. need (@nil stmt) module_names (skipn 5 src_fit_algorithms_fitting); [reflexivity|]. rewrite P, I. reflexivity. Qed.
Lemma needs n e p req : (12 <= n)%nat -> In (p, req) package_needs ->
  snd (import_module project (environment true) n (package_holding p e) p) = if forallb (fun x => mem x e) req then Ok tt else Err ImportError.
Proof.
  intros L H. cbn [package_needs In] in H. destruct H as [H|[H|[H|[H|[]]]]]; injection H as <- <-.
  - now apply needs_parameterize.
  - now apply needs_initialization.
  - now apply needs_text.
  - now apply needs_base_data.
Qed.
