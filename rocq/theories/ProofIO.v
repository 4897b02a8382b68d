(** Lemmas about the text readers and writers. *)
From Coq Require Import Ascii String DecimalString DecimalPos DecimalZ Decimal.
From Verif Require Import Py PyLemmas Num ModelKnots ModelCurve ModelSurface ModelIO SpecIO ProofCurve2 ProofFit ProofFit4.
Open Scope Z_scope.

(** ** Splitting *)
Lemma split_on_app c a b : ~ In c a -> split_on c (a ++ c :: b) = a :: split_on c b.
Proof.
  induction a as [|x a IH]; intros H; cbn [app split_on].
  - destruct (ascii_dec c c); [reflexivity|contradiction].
  - destruct (ascii_dec x c) as [->|]; [elim H; left; reflexivity|].
    rewrite IH; [reflexivity|]; intros G; apply H; right; exact G.
Qed.
Lemma split_on_none c a : ~ In c a -> split_on c a = [a].
Proof.
  induction a as [|x a IH]; intros H; cbn [split_on]; [reflexivity|].
  destruct (ascii_dec x c) as [->|]; [elim H; left; reflexivity|].
  rewrite IH; [reflexivity|]; intros G; apply H; right; exact G.
Qed.
Lemma split_terminated c l : Forall (fun w => ~ In c w) l -> split_on c (flat_map (fun w => w ++ [c]) l) = l ++ [[]].
Proof.
  induction l as [|w l IH]; intros H; [reflexivity|].
  pose proof (Forall_inv H); apply Forall_inv_tail in H.
  cbn [flat_map]; rewrite <- app_assoc; cbn [app]; rewrite split_on_app by assumption; rewrite IH by assumption; reflexivity.
Qed.
Lemma split_joined c l : l <> [] -> Forall (fun w => ~ In c w) l -> split_on c (join c l) = l.
Proof.
  intros N H; induction l as [|w l IH]; [contradiction|].
  pose proof (Forall_inv H); apply Forall_inv_tail in H.
  destruct l as [|w' l]; [apply split_on_none; assumption|].
  cbn [join]; rewrite split_on_app by assumption; f_equal; apply IH; [discriminate|assumption].
Qed.
Lemma lines_unlines l : Forall (fun w => ~ In nl w) l -> lines (unlines l) = l.
Proof.
  intros H; unfold lines, unlines; rewrite split_terminated by exact H.
  unfold drop_empty_last; rewrite last_last, removelast_last; reflexivity.
Qed.
Lemma words_aux_word w cur s : Forall (fun c => blank c = false) w -> words_aux cur (w ++ s) = words_aux (rev w ++ cur) s.
Proof.
  revert cur; induction w as [|x w IH]; intros cur H; [reflexivity|].
  cbn [app words_aux]; rewrite (Forall_inv H), IH by exact (Forall_inv_tail H).
  cbn [rev]; rewrite <- app_assoc; reflexivity.
Qed.
Lemma words_cons w c s : w <> [] -> Forall (fun c => blank c = false) w -> blank c = true ->
  words (w ++ c :: s) = w :: words s.
Proof.
  intros N H B; unfold words; rewrite words_aux_word by exact H; cbn [words_aux]; rewrite B, app_nil_r.
  destruct (rev w) eqn:E; [apply (f_equal (@rev ascii)) in E; rewrite rev_involutive in E; contradiction|].
  rewrite <- E, rev_involutive; reflexivity.
Qed.
Lemma words_blank c s : blank c = true -> words (c :: s) = words s.
Proof. intros B; unfold words; cbn [words_aux]; rewrite B; reflexivity. Qed.
Lemma words_one w : w <> [] -> Forall (fun c => blank c = false) w -> words w = [w].
Proof.
  intros N H; unfold words; rewrite <- (app_nil_r w) at 1; rewrite words_aux_word by exact H; cbn [words_aux].
  rewrite app_nil_r; destruct (rev w) eqn:E; [apply (f_equal (@rev ascii)) in E; rewrite rev_involutive in E; contradiction|].
  rewrite <- E, rev_involutive; reflexivity.
Qed.

(** ** Integers *)
Lemma digits_solid u : Forall (fun c => blank c = false) (txt (NilEmpty.string_of_uint u)).
Proof. induction u; cbn [NilEmpty.string_of_uint]; unfold txt in *; cbn [list_ascii_of_string]; constructor; auto. Qed.
Lemma int_solid z : Forall (fun c => blank c = false) (fmt_int z).
Proof.
  unfold fmt_int, txt, NilZero.string_of_int; destruct (Z.to_int z) as [u|u]; unfold NilZero.string_of_uint.
  - destruct u; try apply digits_solid; repeat constructor.
  - cbn [list_ascii_of_string]; constructor; [reflexivity|]; destruct u; try apply digits_solid; repeat constructor.
Qed.
Lemma solid_not_in w c : Forall (fun x => blank x = false) w -> blank c = true -> ~ In c w.
Proof. intros H B G; rewrite Forall_forall in H; apply H in G; congruence. Qed.
Lemma lstrip_solid w : Forall (fun x => blank x = false) w -> lstrip w = w.
Proof. destruct w as [|x w]; intros H; [reflexivity|]; cbn [lstrip]; rewrite (Forall_inv H); reflexivity. Qed.
Lemma strip_solid w : Forall (fun x => blank x = false) w -> strip w = w.
Proof.
  intros H; unfold strip; rewrite (lstrip_solid w) by exact H; rewrite lstrip_solid by (apply Forall_rev; exact H); apply rev_involutive.
Qed.
Lemma to_int_nonnil z : Z.to_int z <> Pos Nil /\ Z.to_int z <> Neg Nil.
Proof.
  destruct z as [|p|p]; cbn [Z.to_int]; split; try discriminate; intros H; injection H as H; exact (DecimalPos.Unsigned.to_uint_nonnil p H).
Qed.
Fixpoint digs (u : uint) : list Z :=
  match u with
  | Nil => [] | D0 u => 0 :: digs u | D1 u => 1 :: digs u | D2 u => 2 :: digs u | D3 u => 3 :: digs u | D4 u => 4 :: digs u
  | D5 u => 5 :: digs u | D6 u => 6 :: digs u | D7 u => 7 :: digs u | D8 u => 8 :: digs u | D9 u => 9 :: digs u
  end%Z.
Lemma digs_read u : read_digits (txt (NilEmpty.string_of_uint u)) = (digs u, []).
Proof. induction u; cbn [NilEmpty.string_of_uint]; [reflexivity|..]; unfold txt in *; cbn [list_ascii_of_string read_digits digs]; rewrite IHu; reflexivity. Qed.
Lemma digs_acc u : forall p, fold_left (fun a d => 10 * a + d)%Z (digs u) (Z.pos p) = Z.pos (Pos.of_uint_acc u p).
Proof.
  induction u; intros p; cbn [digs fold_left Pos.of_uint_acc]; [reflexivity|..];
    match goal with |- fold_left _ _ ?a = Z.pos (Pos.of_uint_acc _ ?q) => replace a with (Z.pos q) by (rewrite ?Pos2Z.inj_add, ?Pos2Z.inj_mul; lia) end; apply IHu.
Qed.
Lemma digs_number u : number (digs u) = Z.of_uint u.
Proof.
  unfold Z.of_uint, number; induction u; cbn [digs fold_left Pos.of_uint]; [reflexivity|exact IHu|..]; 
    match goal with |- fold_left _ _ ?a = Z.of_N (N.pos (Pos.of_uint_acc _ ?q)) => change a with (Z.pos q) end; apply digs_acc.
Qed.
Lemma no_underscore w : Forall (fun c => c <> "_"%char) w -> forall f, drop_underscores f w = Some w.
Proof. induction 1 as [|c w H _ IH]; intros f; [reflexivity|]; cbn [drop_underscores]; destruct (ascii_dec c "_"); [contradiction|]; rewrite IH; reflexivity. Qed.
Lemma uint_plain u : Forall (fun c => c <> "_"%char) (txt (NilEmpty.string_of_uint u)).
Proof. induction u; cbn [NilEmpty.string_of_uint]; constructor; try discriminate; exact IHu. Qed.
Lemma fmt_int_text z : exists (s : bool) u, fmt_int z = (if s return list ascii then ["-"%char] else []) ++ txt (NilEmpty.string_of_uint u) /\ digs u <> [] /\ z = if s then (- number (digs u))%Z else number (digs u).
Proof.
  assert (N : forall u, u <> Nil -> digs u <> []) by (intros u; destruct u; [congruence|..]; discriminate).
  assert (S : forall u, u <> Nil -> NilZero.string_of_uint u = NilEmpty.string_of_uint u) by (intros u; destruct u; [congruence|..]; reflexivity).
  destruct (to_int_nonnil z) as [N1 N2]; pose proof (of_to z) as O; unfold fmt_int; destruct (Z.to_int z) as [u|u]; cbn [NilZero.string_of_int Z.of_int] in *.
  - exists false, u; rewrite digs_number, S by congruence; split; [reflexivity|split; [apply N; congruence|symmetry; exact O]].
  - exists true, u; rewrite digs_number, S by congruence; split; [reflexivity|split; [apply N; congruence|symmetry; exact O]].
Qed.
Lemma read_sign_digits u : read_sign (txt (NilEmpty.string_of_uint u)) = (false, txt (NilEmpty.string_of_uint u)).
Proof. destruct u; reflexivity. Qed.
Lemma py_int_fmt z : py_int (fmt_int z) = Ok z.
Proof.
  unfold py_int; rewrite strip_solid by apply int_solid; destruct (fmt_int_text z) as (s & u & E & N & V); rewrite E.
  rewrite no_underscore by (destruct s; [constructor; [discriminate|]|]; apply uint_plain).
  assert (R : read_sign ((if s return list ascii then ["-"%char] else []) ++ txt (NilEmpty.string_of_uint u)) = (s, txt (NilEmpty.string_of_uint u))) by (destruct s; [reflexivity|apply read_sign_digits]).
  rewrite R, digs_read; destruct (digs u); [congruence|]; rewrite V; reflexivity.
Qed.

(** Blanks around the digits, and a plus sign, do not matter. *)
Lemma lstrip_blanks a w : Forall (fun x => blank x = true) a -> lstrip (a ++ w) = lstrip w.
Proof. induction 1 as [|x a H _ IH]; [reflexivity|]; cbn [app lstrip]; rewrite H; exact IH. Qed.
Lemma lstrip_hard w t : Forall (fun x => blank x = false) w -> w <> [] -> lstrip (w ++ t) = w ++ t.
Proof. destruct w as [|x w]; intros H N; [congruence|]; cbn [app lstrip]; rewrite (Forall_inv H); reflexivity. Qed.
Lemma strip_padded a w b : Forall (fun x => blank x = true) a -> Forall (fun x => blank x = true) b ->
  Forall (fun x => blank x = false) w -> w <> [] -> strip (a ++ w ++ b) = w.
Proof.
  intros A B W N; unfold strip; rewrite (lstrip_blanks a) by exact A.
  rewrite lstrip_hard by assumption. rewrite rev_app_distr, lstrip_blanks by (apply Forall_rev; exact B).
  rewrite lstrip_solid by (apply Forall_rev; exact W); apply rev_involutive.
Qed.
Lemma fmt_int_some z : fmt_int z <> [].
Proof. intros H; pose proof (py_int_fmt z) as E; rewrite H in E; discriminate E. Qed.
Lemma py_int_padded a b z : Forall (fun x => blank x = true) a -> Forall (fun x => blank x = true) b ->
  py_int (a ++ fmt_int z ++ b) = Ok z /\
  ((0 <= z)%Z -> py_int (a ++ ("+"%char :: fmt_int z) ++ b) = Ok z).
Proof.
  intros A B; split.
  - transitivity (py_int (fmt_int z)); [|apply py_int_fmt]. unfold py_int.
    rewrite strip_padded, strip_solid by (assumption || apply int_solid || apply fmt_int_some); reflexivity.
  - intros Z0. unfold py_int.
    rewrite strip_padded by (assumption || discriminate || (constructor; [reflexivity|apply int_solid])).
    destruct (fmt_int_text z) as (s & u & E & N & V); assert (s = false \/ z = 0%Z) as C.
    { destruct s; [right|left; reflexivity]; rewrite digs_number in V; assert (0 <= Z.of_uint u)%Z by (unfold Z.of_uint; lia); lia. }
    assert (exists u, fmt_int z = txt (NilEmpty.string_of_uint u) /\ digs u <> [] /\ z = number (digs u)) as (v & Ev & Nv & Vv).
    { destruct C as [-> | ->]; [exists u; split; [exact E|split; assumption]|exists (D0 Nil); split; [reflexivity|split; [discriminate|reflexivity]]]. }
    rewrite Ev, no_underscore by (constructor; [discriminate|apply uint_plain]).
    cbn [read_sign]; destruct (ascii_dec "+" "-") as [C0|_]; [discriminate C0|]; destruct (ascii_dec "+" "+") as [_|C0]; [|congruence].
    rewrite digs_read; destruct (digs v); [congruence|]; rewrite Vv; reflexivity.
Qed.
Lemma py_int_blank a : Forall (fun x => blank x = true) a -> py_int a = Err ValueError.
Proof.
  intros A. unfold py_int, strip. rewrite <- (app_nil_r a) at 1. rewrite lstrip_blanks by exact A. reflexivity.
Qed.

(** ** Writing *)
Section Emit.
Variables (d0 : fs) (name : text).
Definition holds (c : text) (d : fs) : Prop := others_same name d0 d /\ f_files d name = Some c.
Definition emits (m : io unit) (out : text) : Prop :=
  forall c d, holds c d -> exists d', m d = (d', Ok tt) /\ holds (c ++ out) d'.
Lemma text_eqb_refl a : text_eqb a a = true.
Proof. unfold text_eqb; destruct (list_eq_dec ascii_dec a a); [reflexivity|contradiction]. Qed.
Lemma text_eqb_neq a b : a <> b -> text_eqb a b = false.
Proof. unfold text_eqb; destruct (list_eq_dec ascii_dec a b); [contradiction|reflexivity]. Qed.
Lemma emits_write s : emits (f_write name s) s.
Proof.
  intros c d [(H1 & H2 & H3) H4]; eexists; split; [reflexivity|]; unfold holds; rewrite H4; cbn [put f_files].
  split; [|rewrite text_eqb_refl; reflexivity].
  split; [|split; assumption]; intros n N; cbn [put f_files]; rewrite text_eqb_neq by exact N; apply H1; exact N.
Qed.
Lemma emits_seq m k a b : emits m a -> emits k b -> emits (let! _ := m in k) (a ++ b).
Proof.
  intros Hm Hk c d H; destruct (Hm c d H) as (d1 & E1 & H1); destruct (Hk _ d1 H1) as (d2 & E2 & H2).
  exists d2; unfold ibind; rewrite E1, E2, app_assoc; split; [reflexivity|exact H2].
Qed.
Lemma emits_for {X} (l : list X) body f : (forall x, In x l -> emits (body x) (f x)) -> emits (io_for l body) (flat_map f l).
Proof.
  induction l as [|x l IH]; intros H.
  - intros c d G; exists d; rewrite app_nil_r; split; [reflexivity|exact G].
  - cbn [io_for flat_map]; apply emits_seq; [apply H; left; reflexivity|apply IH; intros; apply H; right; assumption].
Qed.
Lemma holds_open d : f_wopen d0 name = None -> d = d0 -> exists d', open_w name d = (d', Ok tt) /\ holds [] d'.
Proof.
  intros W ->; unfold open_w; rewrite W; eexists; split; [reflexivity|]; split.
  - split; [|split; reflexivity]; intros n N; cbn [put f_files]; rewrite text_eqb_neq by exact N; reflexivity.
  - cbn [put f_files]; rewrite text_eqb_refl; reflexivity.
Qed.
End Emit.

Definition knot_text {K : Num} (fmt : K -> text) (kv : list K) : text := flat_map (fun k => fmt k ++ [tabc]) kv.

Lemma unlines_app l m : unlines (l ++ m) = unlines l ++ unlines m.
Proof. apply flat_map_app. Qed.
Lemma unlines_map {X} (f : X -> text) l : unlines (map f l) = flat_map (fun x => f x ++ [nl]) l.
Proof. unfold unlines; induction l; [reflexivity|]; cbn; rewrite IHl; reflexivity. Qed.

Lemma write_surface_layout {K : Num} (cd : codec K) pu pv nu nv P ku kv name d : f_wopen d name = None ->
  exists d', write_surface_to_txt cd (mkSurf pu pv nu nv (map row3 P) ku kv) name d = (d', Ok tt) /\
    others_same name d d' /\
    f_files d' name = Some (unlines (surface_layout (tc_fmt cd) pu pv (zlen ku) (zlen kv)
                                       (knot_text (tc_fmt cd) ku) (knot_text (tc_fmt cd) kv) nu nv P)).
Proof.
  intros W; destruct (holds_open d name d W eq_refl) as (d1 & E1 & H1).
  unfold write_surface_to_txt; cbn [s_pu s_pv s_nu s_nv s_ctrl s_ku s_kv].
  match goal with |- exists d', ibind (open_w name) (fun _ => ?k) d = _ /\ _ => assert (EM : exists out, emits d name k out /\
     out = unlines (surface_layout (tc_fmt cd) pu pv (zlen ku) (zlen kv) (knot_text (tc_fmt cd) ku) (knot_text (tc_fmt cd) kv) nu nv P)) end.
  { eexists; split.
    - repeat (apply emits_seq; [first [apply emits_write|apply emits_for; intros; apply emits_write]|]).
      apply (emits_for d name _ _ (fun q => match q with x :: y :: z :: _ => (tc_fmt cd x ++ [tabc; " "%char] ++ tc_fmt cd y ++ [tabc; " "%char] ++ tc_fmt cd z) ++ [nl] | _ => [] end)).
      intros q Hq; apply in_map_iff in Hq; destruct Hq as (((x & y) & z) & <- & _); unfold row3; cbn [fst snd].
      intros c d' H; exact (emits_write d name _ c d' H).
    - unfold surface_layout; rewrite unlines_app, unlines_map.
      assert (EP : forall l, flat_map (fun q => match q with x :: y :: z :: _ => (tc_fmt cd x ++ [tabc; " "%char] ++ tc_fmt cd y ++ [tabc; " "%char] ++ tc_fmt cd z) ++ [nl] | _ => [] end) (map row3 l)
        = flat_map (fun q => (tc_fmt cd (fst (fst q)) ++ [tabc; " "%char] ++ tc_fmt cd (snd (fst q)) ++ [tabc; " "%char] ++ tc_fmt cd (snd q)) ++ [nl]) l).
      { induction l as [|q l IH]; [reflexivity|]; cbn [map flat_map]; rewrite <- IH; reflexivity. }
      rewrite EP; unfold unlines, knot_text; cbn [flat_map]; rewrite app_nil_r, <- !app_assoc; reflexivity. }
  destruct EM as (out & EM & ->); destruct (EM [] d1 H1) as (d2 & E2 & [H2 H3]).
  exists d2; unfold ibind at 1; rewrite E1; split; [exact E2|]; split; [exact H2|exact H3].
Qed.

(** ** Reading *)
Lemma aget_lit {A} (l : list A) i x : 0 <= i -> nth_error l (Z.to_nat i) = Some x -> aget l i = Ok x.
Proof.
  intros Hi E; assert (L : (Z.to_nat i < length l)%nat) by (apply nth_error_Some; congruence).
  unfold aget, zlen; destruct (Z.ltb_spec i 0); [lia|].
  destruct (Z.leb_spec 0 i), (Z.ltb_spec i (Z.of_nat (length l))); try lia; cbn [andb]; rewrite E; reflexivity.
Qed.
Lemma solid_no_nl w : Forall (fun c => blank c = false) w -> ~ In nl w.
Proof. intros H; apply solid_not_in; [exact H|reflexivity]. Qed.
Lemma app_no_nl (a b : text) : ~ In nl a -> ~ In nl b -> ~ In nl (a ++ b).
Proof. intros H G F; apply in_app_iff in F; tauto. Qed.

Section Read.
Context {K : Num} (cd : codec K) (FA : faithful cd).
Lemma fmt_no_nl x : ~ In nl (tc_fmt cd x).
Proof using FA. apply solid_no_nl, (fa_blank cd FA). Qed.
Lemma fmt_no_tab x : ~ In tabc (tc_fmt cd x).
Proof using FA. apply solid_not_in; [apply (fa_blank cd FA)|reflexivity]. Qed.
Lemma knot_text_no_nl kv : ~ In nl (knot_text (tc_fmt cd) kv).
Proof using FA.
  induction kv as [|k kv IH]; [intros []|]; cbn [knot_text flat_map]; apply app_no_nl; [|exact IH].
  apply app_no_nl; [apply fmt_no_nl|intros [H|[]]; discriminate H].
Qed.
Lemma join_no_nl kv : ~ In nl (join tabc (map (tc_fmt cd) kv)).
Proof using FA.
  induction kv as [|k [|k' kv] IH]; [intros []|apply fmt_no_nl|]; cbn [map join] in *; apply app_no_nl; [apply fmt_no_nl|].
  intros [H|H]; [discriminate H|exact (IH H)].
Qed.
Lemma point_no_nl P : Forall (fun w => ~ In nl w) (map (fun q => tc_fmt cd (fst (fst q)) ++ [tabc; " "%char] ++ tc_fmt cd (snd (fst q)) ++ [tabc; " "%char] ++ tc_fmt cd (snd q)) P).
Proof using FA.
  apply Forall_forall; intros w H; apply in_map_iff in H; destruct H as (q & <- & _).
  repeat apply app_no_nl; try apply fmt_no_nl; intros H; cbn in H; intuition discriminate.
Qed.
Ltac lit_nl := let H := fresh in intros H; cbn in H; intuition discriminate.
Lemma surface_layout_nl pu pv a b la lb nu nv P : ~ In nl la -> ~ In nl lb ->
  lines (unlines (surface_layout (tc_fmt cd) pu pv a b la lb nu nv P)) = surface_layout (tc_fmt cd) pu pv a b la lb nu nv P.
Proof using FA.
  intros Ha Hb; apply lines_unlines; unfold surface_layout; apply Forall_app; split; [|apply point_no_nl].
  repeat (apply Forall_cons || apply Forall_nil); try assumption; try (apply solid_no_nl, int_solid); lit_nl.
Qed.
Lemma curve_layout_nl p a la n P : ~ In nl la ->
  lines (unlines (curve_layout (tc_fmt cd) p a la n P)) = curve_layout (tc_fmt cd) p a la n P.
Proof using FA.
  intros Ha; apply lines_unlines; unfold curve_layout; apply Forall_app; split; [|apply point_no_nl].
  repeat (apply Forall_cons || apply Forall_nil); try assumption; try (apply solid_no_nl, int_solid); lit_nl.
Qed.

Lemma mapM_app {X Y} (f : X -> res Y) a b :
  mapM f (a ++ b) = let* x := mapM f a in let* y := mapM f b in Ok (x ++ y).
Proof.
  induction a as [|x a IH]; cbn [app mapM bind]; [destruct (mapM f b); reflexivity|].
  destruct (f x); cbn [bind]; [|reflexivity|reflexivity].
  rewrite IH; destruct (mapM f a); cbn [bind]; [|reflexivity|reflexivity]; destruct (mapM f b); reflexivity.
Qed.
Lemma read_fmt kv : read_floats cd (map (tc_fmt cd) kv) = Ok kv.
Proof using FA.
  unfold read_floats; rewrite (mapM_map (tc_parse cd) (tc_fmt cd) (fun x => x)), map_id; [reflexivity|].
  intros x _; apply (fa_inv cd FA).
Qed.
Lemma knot_text_split kv : split_on tabc (knot_text (tc_fmt cd) kv) = map (tc_fmt cd) kv ++ [[]].
Proof using FA.
  unfold knot_text; etransitivity; [|apply (split_terminated tabc (map (tc_fmt cd) kv))].
  - f_equal; induction kv; [reflexivity|]; cbn [map flat_map]; rewrite <- IHkv; reflexivity.
  - apply Forall_forall; intros w H; apply in_map_iff in H; destruct H as (x & <- & _); apply fmt_no_tab.
Qed.
Lemma read_knot_text kv : read_floats cd (split_on tabc (knot_text (tc_fmt cd) kv)) = Err ValueError.
Proof using FA.
  rewrite knot_text_split; unfold read_floats; rewrite mapM_app.
  pose proof (read_fmt kv) as E; unfold read_floats in E; rewrite E; cbn [bind mapM]; rewrite (fa_empty cd FA); reflexivity.
Qed.
Lemma read_joined kv : kv <> [] -> read_floats cd (split_on tabc (join tabc (map (tc_fmt cd) kv))) = Ok kv.
Proof using FA.
  intros N; rewrite split_joined; [apply read_fmt| |].
  - destruct kv; [contradiction|discriminate].
  - apply Forall_forall; intros w H; apply in_map_iff in H; destruct H as (x & <- & _); apply fmt_no_tab.
Qed.
Lemma read_point q : read_floats cd (words (tc_fmt cd (fst (fst q)) ++ [tabc; " "%char] ++ tc_fmt cd (snd (fst q)) ++ [tabc; " "%char] ++ tc_fmt cd (snd q)))
  = Ok (row3 q).
Proof using FA.
  destruct FA as [F1 F2 F3 _ _]; cbn [app].
  rewrite words_cons by (auto; reflexivity); rewrite words_blank by reflexivity.
  rewrite words_cons by (auto; reflexivity); rewrite words_blank by reflexivity.
  rewrite words_one by auto; unfold read_floats; cbn [mapM]; rewrite !F3; reflexivity.
Qed.
Lemma mapM_tail {Y} (f : text -> res Y) pre post :
  mapM (fun i => let* s := aget (pre ++ post) i in f s) (zrange (zlen pre) (zlen (pre ++ post))) = mapM f post.
Proof.
  revert pre; induction post as [|s post IH]; intros pre.
  - rewrite app_nil_r, zrange_nil by lia; reflexivity.
  - rewrite zrange_cons by (rewrite zlen_app, zlen_cons; pose proof (Zle_0_nat (length post)); unfold zlen; lia).
    cbn [mapM]; rewrite aget_mid by reflexivity; cbn [bind]; destruct (f s); cbn [bind]; [|reflexivity|reflexivity].
    specialize (IH (pre ++ [s])); rewrite <- app_assoc in IH; cbn [app] in IH; rewrite zlen_app, zlen_cons in IH.
    replace (zlen pre + (zlen (@nil text) + 1)) with (zlen pre + 1) in IH by (unfold zlen; cbn; lia).
    rewrite <- IH; reflexivity.
Qed.
Lemma read_points pre P : read_rows cd (pre ++ map (fun q => tc_fmt cd (fst (fst q)) ++ [tabc; " "%char] ++ tc_fmt cd (snd (fst q)) ++ [tabc; " "%char] ++ tc_fmt cd (snd q)) P) (zlen pre)
  = Ok (map row3 P).
Proof using FA.
  unfold read_rows; rewrite mapM_tail.
  apply (mapM_map (fun s => read_floats cd (words s))); intros q _; apply read_point.
Qed.

(** The knot lines as written cannot be read. *)
Lemma parse_written pu pv a b ku lb nu nv P :
  parse_surf cd (surface_layout (tc_fmt cd) pu pv a b (knot_text (tc_fmt cd) ku) lb nu nv P) = Err ValueError.
Proof using FA.
  unfold parse_surf.
  rewrite (aget_lit _ 1 (fmt_int pu)), (aget_lit _ 3 (fmt_int pv)), (aget_lit _ 5 (fmt_int a)), (aget_lit _ 7 (fmt_int b)),
    (aget_lit _ 9 (knot_text (tc_fmt cd) ku)) by (lia || reflexivity).
  cbn [bind]; rewrite !py_int_fmt; cbn [bind]; rewrite read_knot_text; reflexivity.
Qed.
Lemma parse_clean pu pv a b ku kv nu nv P : ku <> [] -> kv <> [] ->
  parse_surf cd (surface_layout (tc_fmt cd) pu pv a b (join tabc (map (tc_fmt cd) ku)) (join tabc (map (tc_fmt cd) kv)) nu nv P)
  = Ok (pu, pv, (a, b), ku, kv, nu, nv, map row3 P).
Proof using FA.
  intros Nu Nv; unfold parse_surf.
  rewrite (aget_lit _ 1 (fmt_int pu)), (aget_lit _ 3 (fmt_int pv)), (aget_lit _ 5 (fmt_int a)), (aget_lit _ 7 (fmt_int b)),
    (aget_lit _ 9 (join tabc (map (tc_fmt cd) ku))), (aget_lit _ 11 (join tabc (map (tc_fmt cd) kv))),
    (aget_lit _ 13 (fmt_int nu)), (aget_lit _ 15 (fmt_int nv)) by (lia || reflexivity).
  cbn [bind]; rewrite !py_int_fmt; cbn [bind]; rewrite !read_joined by assumption; cbn [bind].
  unfold surface_layout; match goal with |- context [read_rows cd (?pre ++ _) 17] => change 17 with (zlen pre) end.
  rewrite read_points; reflexivity.
Qed.
Lemma parse_clean_curve p a kv n P : kv <> [] ->
  parse_curve cd (curve_layout (tc_fmt cd) p a (join tabc (map (tc_fmt cd) kv)) n P) = Ok (p, a, kv, n, map row3 P).
Proof using FA.
  intros N; unfold parse_curve.
  rewrite (aget_lit _ 1 (fmt_int p)), (aget_lit _ 3 (fmt_int a)), (aget_lit _ 5 (join tabc (map (tc_fmt cd) kv))),
    (aget_lit _ 7 (fmt_int n)) by (lia || reflexivity).
  cbn [bind]; rewrite !py_int_fmt; cbn [bind]; rewrite !read_joined by assumption; cbn [bind].
  unfold curve_layout; match goal with |- context [read_rows cd (?pre ++ _) 9] => change 9 with (zlen pre) end.
  rewrite read_points; reflexivity.
Qed.

Lemma open_r_ok d name s : f_ropen d name = None -> f_files d name = Some s -> open_r name d = (d, Ok s).
Proof. intros H G; unfold open_r; rewrite H, G; reflexivity. Qed.

(** C61: what is written cannot be read back; the object is untouched. *)
Lemma surface_round_trip {S} (step : setter S (surf_op K)) (o : S) pu pv nu nv P ku kv name d :
  f_wopen d name = None -> f_ropen d name = None ->
  exists d', write_surface_to_txt cd (mkSurf pu pv nu nv (map row3 P) ku kv) name d = (d', Ok tt) /\
    read_surf_from_txt step cd (Some o) name d' = (d', Some o, Err ValueError).
Proof using FA.
  intros W V; destruct (write_surface_layout cd pu pv nu nv P ku kv name d W) as (d' & E & (_ & HR & _) & HF).
  exists d'; split; [exact E|]; unfold read_surf_from_txt, ibind.
  rewrite (open_r_ok d' name _) with (2 := HF) by (rewrite HR; exact V).
  rewrite surface_layout_nl by apply knot_text_no_nl; rewrite parse_written; reflexivity.
Qed.
(** The reader on a file without the trailing tabs. *)
Lemma surface_clean_read {S} (step : setter S (surf_op K)) (o : S) pu pv a b nu nv P ku kv name d : ku <> [] -> kv <> [] ->
  f_ropen d name = None ->
  f_files d name = Some (unlines (surface_layout (tc_fmt cd) pu pv a b (join tabc (map (tc_fmt cd) ku)) (join tabc (map (tc_fmt cd) kv)) nu nv P)) ->
  read_surf_from_txt step cd (Some o) name d =
    let '(o', r) := assign_all step o [SDegreeU pu; SDegreeV pv; SNumU nu; SNumV nv; SCtrl (map row3 P); SKnotU (NdArray ku); SKnotV (NdArray kv)] in
    (d, Some o', r).
Proof using FA.
  intros Nu Nv V HF; unfold read_surf_from_txt, ibind; rewrite (open_r_ok d name _ V HF).
  rewrite surface_layout_nl by apply join_no_nl; rewrite parse_clean by assumption; reflexivity.
Qed.
Lemma surface_clean_plain (s : surf K) pu pv a b nu nv P ku kv name d : ku <> [] -> kv <> [] ->
  f_ropen d name = None ->
  f_files d name = Some (unlines (surface_layout (tc_fmt cd) pu pv a b (join tabc (map (tc_fmt cd) ku)) (join tabc (map (tc_fmt cd) kv)) nu nv P)) ->
  read_surf_from_txt plain_step cd (Some s) name d = (d, Some (mkSurf pu pv nu nv (map row3 P) ku kv), Ok tt).
Proof using FA. intros Nu Nv V HF; rewrite (surface_clean_read plain_step s pu pv a b nu nv P ku kv name d Nu Nv V HF); reflexivity. Qed.
Lemma curve_clean_read {S} (step : setter S (curve_op K)) (o : S) p a n P kv name d : kv <> [] ->
  f_ropen d name = None ->
  f_files d name = Some (unlines (curve_layout (tc_fmt cd) p a (join tabc (map (tc_fmt cd) kv)) n P)) ->
  read_curve_from_txt step cd (Some o) name d =
    let '(o', r) := assign_all step o [OpDegree p; OpControlPoints (map row3 P); OpKnotVector (NdArray kv)] in (d, Some o', r).
Proof using FA.
  intros N V HF; unfold read_curve_from_txt, ibind; rewrite (open_r_ok d name _ V HF).
  rewrite curve_layout_nl by apply join_no_nl; rewrite parse_clean_curve by assumption; reflexivity.
Qed.
End Read.

(** Loading into None never succeeds and changes nothing. *)
Lemma read_curve_none {K : Num} {S} (step : setter S (curve_op K)) cd name d :
  exists e, read_curve_from_txt step cd None name d = (d, None, e) /\ e <> Ok tt.
Proof.
  unfold read_curve_from_txt, ibind, open_r; destruct (f_ropen d name) as [e|]; [exists (Err e); split; [reflexivity|discriminate]|].
  destruct (f_files d name) as [s|]; [|exists (Err FileNotFoundError); split; [reflexivity|discriminate]]; unfold ret.
  destruct (parse_curve cd (lines s)) as [[[[[? ?] ?] ?] ?]|e|]; eexists; (split; [reflexivity|discriminate]).
Qed.

(** ** C60 *)
Lemma write_curve_never {K : Num} (c : curve_obj K) name d :
  write_curve_to_txt c name d =
    (d, Err (match f_ropen d name with Some e => e
             | None => match f_files d name with None => FileNotFoundError | Some _ => UnsupportedOperation end end)).
Proof.
  unfold write_curve_to_txt, ibind, open_r; destruct (f_ropen d name); [reflexivity|]; destruct (f_files d name); reflexivity.
Qed.
(** Opening the file for writing would not help: the body raises after the header. *)
Lemma write_curve_body_header {K : Num} (c : curve_obj K) name d : f_wopen d name = None ->
  exists d', (let! _ := open_w name in write_curve_body c (f_write name)) d = (d', Err TypeError) /\ others_same name d d' /\
    f_files d' name = Some (unlines ([txt "Degree - p:"; match c_degree c with Some p => fmt_int p | None => txt "None" end; txt "Number of Knots"] ++
      match c_kv c with Some kv => [fmt_int (zlen kv); txt "Knot Vector - U"] | None => [] end)).
Proof.
  intros W; destruct (holds_open d name d W eq_refl) as (d1 & E1 & H1).
  set (deg := match c_degree c with Some p => fmt_int p | None => txt "None" end).
  destruct (c_kv c) as [kv|] eqn:Hk.
  - assert (S1 : emits d name (let! _ := f_write name (txt "Degree - p:" ++ [nl]) in let! _ := f_write name (deg ++ [nl]) in
       let! _ := f_write name (txt "Number of Knots" ++ [nl]) in let! _ := f_write name (fmt_int (zlen kv) ++ [nl]) in f_write name (txt "Knot Vector - U" ++ [nl]))
       ((txt "Degree - p:" ++ [nl]) ++ (deg ++ [nl]) ++ (txt "Number of Knots" ++ [nl]) ++ (fmt_int (zlen kv) ++ [nl]) ++ (txt "Knot Vector - U" ++ [nl]))).
    { repeat (apply emits_seq; [apply emits_write|]); apply emits_write. }
    destruct (S1 [] d1 H1) as (d2 & E2 & [H2 H3]); exists d2; split; [|split; [exact H2|]].
    + unfold ibind at 1; rewrite E1; unfold write_curve_body; rewrite Hk; fold deg.
      unfold ibind, ret, f_write in E2 |- *; injection E2 as <-; reflexivity.
    + rewrite H3; unfold unlines; cbn [flat_map app]; rewrite app_nil_r; reflexivity.
  - assert (S1 : emits d name (let! _ := f_write name (txt "Degree - p:" ++ [nl]) in let! _ := f_write name (deg ++ [nl]) in f_write name (txt "Number of Knots" ++ [nl]))
       ((txt "Degree - p:" ++ [nl]) ++ (deg ++ [nl]) ++ (txt "Number of Knots" ++ [nl]))).
    { repeat (apply emits_seq; [apply emits_write|]); apply emits_write. }
    destruct (S1 [] d1 H1) as (d2 & E2 & [H2 H3]); exists d2; split; [|split; [exact H2|]].
    + unfold ibind at 1; rewrite E1; unfold write_curve_body; rewrite Hk; fold deg.
      unfold ibind, ret, f_write in E2 |- *; injection E2 as <-; reflexivity.
    + rewrite H3; unfold unlines; cbn [flat_map app]; rewrite app_nil_r; reflexivity.
Qed.
