(** Lemmas about partial writes, file extensions, the reader and writer classes. *)
From Coq Require Import Ascii String.
From Verif Require Import Py PyLemmas Num ModelKnots ModelCurve ModelSurface ModelIO SpecIO ProofCurve2 ProofFit ProofFit4 ProofIO.
Open Scope Z_scope.

(** A point with fewer than three coordinates stops the writer half way. *)
Lemma short_line {K : Num} (cd : codec K) name q d : (length q < 3)%nat ->
  (let! x := ret (aget q 0) in let! y := ret (aget q 1) in let! z := ret (aget q 2) in
   f_write name ((tc_fmt cd x ++ [tabc; " "%char] ++ tc_fmt cd y ++ [tabc; " "%char] ++ tc_fmt cd z) ++ [nl])) d = (d, Err IndexError).
Proof.
  intros H; unfold ibind, ret; destruct q as [|x [|y [|z q]]]; [reflexivity|reflexivity|reflexivity|cbn in H; lia].
Qed.
Lemma io_for_app {X} (l m : list X) body d : io_for (l ++ m) body d = (let! _ := io_for l body in io_for m body) d.
Proof.
  revert d; induction l as [|x l IH]; intros d; [reflexivity|]; cbn [app io_for]; unfold ibind in *.
  destruct (body x d) as [d1 [[]|e|]]; [|reflexivity|reflexivity]; rewrite IH; reflexivity.
Qed.
Definition fails (d0 : fs) (name : text) (m : io unit) (e : exn) (out : text) : Prop :=
  forall c d, holds d0 name c d -> exists d', m d = (d', Err e) /\ holds d0 name (c ++ out) d'.
Lemma fails_seq d0 name m k e a b : emits d0 name m a -> fails d0 name k e b -> fails d0 name (let! _ := m in k) e (a ++ b).
Proof.
  intros Hm Hk c d H; destruct (Hm c d H) as (d1 & E1 & H1); destruct (Hk _ d1 H1) as (d2 & E2 & H2).
  exists d2; unfold ibind; rewrite E1, E2, app_assoc; split; [reflexivity|exact H2].
Qed.
Lemma fails_for {X} d0 name (l : list X) q rest body e f : (forall x, In x l -> emits d0 name (body x) (f x)) ->
  (forall d, body q d = (d, Err e)) -> fails d0 name (io_for (l ++ q :: rest) body) e (flat_map f l).
Proof.
  intros H Hq c d G; destruct (emits_for d0 name l body f H c d G) as (d1 & E1 & H1).
  exists d1; split; [|exact H1]; rewrite io_for_app; unfold ibind; rewrite E1; cbn [io_for]; unfold ibind; rewrite Hq; reflexivity.
Qed.
Lemma write_surface_short {K : Num} (cd : codec K) pu pv nu nv P q rest ku kv name d : f_wopen d name = None -> (length q < 3)%nat ->
  exists d', write_surface_to_txt cd (mkSurf pu pv nu nv (map row3 P ++ q :: rest) ku kv) name d = (d', Err IndexError) /\
    others_same name d d' /\
    f_files d' name = Some (unlines (surface_layout (tc_fmt cd) pu pv (zlen ku) (zlen kv)
                                       (knot_text (tc_fmt cd) ku) (knot_text (tc_fmt cd) kv) nu nv P)).
Proof.
  intros W Hq; destruct (holds_open d name d W eq_refl) as (d1 & E1 & H1).
  unfold write_surface_to_txt; cbn [s_pu s_pv s_nu s_nv s_ctrl s_ku s_kv].
  match goal with |- exists d', ibind (open_w name) (fun _ => ?k) d = _ /\ _ => assert (EM : exists out, fails d name k IndexError out /\
     out = unlines (surface_layout (tc_fmt cd) pu pv (zlen ku) (zlen kv) (knot_text (tc_fmt cd) ku) (knot_text (tc_fmt cd) kv) nu nv P)) end.
  { eexists; split.
    - repeat (apply fails_seq; [first [apply emits_write|apply emits_for; intros; apply emits_write]|]).
      apply (fails_for d name _ _ _ _ _ (fun q => match q with x :: y :: z :: _ => (tc_fmt cd x ++ [tabc; " "%char] ++ tc_fmt cd y ++ [tabc; " "%char] ++ tc_fmt cd z) ++ [nl] | _ => [] end)).
      + intros q' Hq'; apply in_map_iff in Hq'; destruct Hq' as (((x & y) & z) & <- & _); unfold row3; cbn [fst snd].
        intros c d' H; exact (emits_write d name _ c d' H).
      + intros d'; apply short_line; exact Hq.
    - unfold surface_layout; rewrite unlines_app, unlines_map.
      assert (EP : forall l, flat_map (fun q => match q with x :: y :: z :: _ => (tc_fmt cd x ++ [tabc; " "%char] ++ tc_fmt cd y ++ [tabc; " "%char] ++ tc_fmt cd z) ++ [nl] | _ => [] end) (map row3 l)
        = flat_map (fun q => (tc_fmt cd (fst (fst q)) ++ [tabc; " "%char] ++ tc_fmt cd (snd (fst q)) ++ [tabc; " "%char] ++ tc_fmt cd (snd q)) ++ [nl]) l).
      { induction l as [|q' l IH]; [reflexivity|]; cbn [map flat_map]; rewrite <- IH; reflexivity. }
      rewrite EP; unfold unlines, knot_text; cbn [flat_map]; rewrite app_nil_r, <- !app_assoc; reflexivity. }
  destruct EM as (out & EM & ->); destruct (EM [] d1 H1) as (d2 & E2 & [H2 H3]).
  exists d2; unfold ibind at 1; rewrite E1; split; [exact E2|]; split; [exact H2|exact H3].
Qed.

Lemma write_surface_denied {K : Num} (cd : codec K) s name d e : f_wopen d name = Some e ->
  write_surface_to_txt cd s name d = (d, Err e).
Proof. intros H; unfold write_surface_to_txt, ibind at 1, open_w; rewrite H; reflexivity. Qed.

(** ** Extensions *)
Lemma rfind_from_spec c s i : 0 <= i -> ~ In c s /\ rfind_from c s i = -1 \/
  exists a b, s = a ++ c :: b /\ ~ In c b /\ rfind_from c s i = i + zlen a.
Proof.
  revert i; induction s as [|x s IH]; intros i Hi; [left; split; [intros []|reflexivity]|].
  cbn [rfind_from]; destruct (IH (i + 1) ltac:(lia)) as [[N ->]|(a & b & -> & N & ->)].
  - change (0 <=? -1) with false; cbv iota; destruct (ascii_dec x c) as [->|NE].
    + right; exists [], s; split; [reflexivity|]; split; [exact N|unfold zlen; cbn; lia].
    + left; split; [|reflexivity]; intros [G|G]; [contradiction|exact (N G)].
  - right; exists (x :: a), b; split; [reflexivity|]; split; [exact N|].
    destruct (Z.leb_spec 0 (i + 1 + zlen a)); unfold zlen in *; cbn [length]; lia.
Qed.
Lemma rfind_spec c s : ~ In c s /\ rfind c s = -1 \/ exists a b, s = a ++ c :: b /\ ~ In c b /\ rfind c s = zlen a.
Proof. destruct (rfind_from_spec c s 0 ltac:(lia)) as [H|(a & b & H1 & H2 & H3)]; [left; exact H|right; exists a, b; auto]. Qed.
Lemma rfind_at c a b : ~ In c b -> rfind c (a ++ c :: b) = zlen a.
Proof.
  intros N; destruct (rfind_spec c (a ++ c :: b)) as [[H _]|(a' & b' & E & N' & ->)]; [elim H; apply in_elt|].
  revert a' E; induction a as [|x a IH]; intros [|x' a'] E.
  - reflexivity.
  - cbn in E; injection E as _ E; subst b; elim N; apply in_elt.
  - cbn in E; injection E as _ E; subst b'; elim N'; apply in_elt.
  - cbn in E; injection E as _ E; specialize (IH a' E); unfold zlen in *; cbn [length]; lia.
Qed.
Lemma json_no_dot : ~ In "."%char (txt "json").
Proof. cbn; intuition discriminate. Qed.
Lemma json_no_sep : ~ In "/"%char (txt ".json").
Proof. cbn; intuition discriminate. Qed.
Lemma slice_stem (a s : text) lo : 0 <= lo -> slice (a ++ s) lo (zlen a) = skipn (Z.to_nat lo) a.
Proof.
  intros Hl; unfold slice, slice_bound; rewrite zlen_app.
  destruct (Z.ltb_spec lo 0), (Z.ltb_spec (zlen a) 0); try (unfold zlen in *; lia).
  rewrite (Z.min_l (zlen a)) by (unfold zlen; lia).
  destruct (Z.le_gt_cases lo (zlen a)).
  - rewrite Z.min_l by (unfold zlen in *; lia); rewrite skipn_app, firstn_app.
    rewrite skipn_length; replace (Z.to_nat (zlen a - lo) - (length a - Z.to_nat lo))%nat with O by (unfold zlen; lia).
    cbn [firstn]; rewrite app_nil_r; apply firstn_all2; rewrite skipn_length; unfold zlen; lia.
  - replace (Z.to_nat (zlen a - Z.min lo (zlen a + zlen s))) with O by (unfold zlen in *; lia).
    cbn [firstn]; symmetry; apply skipn_all2; unfold zlen in *; lia.
Qed.
Lemma supported_iff p : supported p = true <->
  exists a c b, p = a ++ c :: b ++ txt ".json" /\ c <> "."%char /\ c <> "/"%char /\ ~ In "/"%char b.
Proof.
  unfold supported, text_eqb; destruct (list_eq_dec ascii_dec (extension p) (txt ".json")) as [E|E]; split; intros H; try discriminate; try reflexivity.
  - clear H; revert E; unfold extension.
    destruct (rfind_spec "."%char p) as [[_ ->]|(st & e & -> & Ne & ->)].
    + destruct (rfind_spec "/"%char p) as [[_ ->]|(? & ? & _ & _ & ->)].
      * change (-1 <? -1) with false; discriminate.
      * match goal with |- context [?z <? -1] => destruct (Z.ltb_spec z (-1)); [unfold zlen in *; lia|discriminate] end.
    + assert (SEP : rfind "/"%char (st ++ "."%char :: e) < zlen st -> exists lo, rfind "/"%char (st ++ "."%char :: e) = lo - 1 /\ 0 <= lo /\ ~ In "/"%char (skipn (Z.to_nat lo) st)).
      { destruct (rfind_spec "/"%char (st ++ "."%char :: e)) as [[N ->]|(a & b & EQ & N & EZ)]; intros HL.
        - exists 0; split; [lia|]; split; [lia|]; cbn; intros G; apply N, in_app_iff; left; exact G.
        - exists (zlen a + 1); split; [lia|]; split; [unfold zlen; lia|]; intros G; apply N.
          assert (SK : skipn (Z.to_nat (zlen a + 1)) (st ++ "."%char :: e) = b).
          { rewrite EQ; replace (Z.to_nat (zlen a + 1)) with (length a + 1)%nat by (unfold zlen; lia).
            rewrite skipn_app, skipn_all2 by lia; replace (length a + 1 - length a)%nat with 1%nat by lia; reflexivity. }
          rewrite <- SK, skipn_app; apply in_app_iff; left; exact G. }
      destruct (Z.ltb_spec (rfind "/"%char (st ++ "."%char :: e)) (zlen st)) as [HL|]; [|discriminate].
      destruct (SEP HL) as (lo & -> & Hlo & NS); replace (lo - 1 + 1) with lo by lia; rewrite slice_stem by exact Hlo.
      destruct (existsb _ _) eqn:EX; [|discriminate]; intros E.
      apply existsb_exists in EX; destruct EX as (c & Hc & EC); destruct (ascii_dec c "."%char) as [|ND]; [discriminate|].
      replace (Z.to_nat (zlen st)) with (length st) in E by (unfold zlen; lia).
      rewrite skipn_app, skipn_all, Nat.sub_diag in E; cbn [app skipn] in E.
      destruct (in_split _ _ Hc) as (l1 & l2 & ES).
      exists (firstn (Z.to_nat lo) st ++ l1), c, l2.
      split; [|split; [exact ND|split; [intros ->; exact (NS Hc)|intros G; apply NS; rewrite ES; apply in_app_iff; right; right; exact G]]].
      rewrite <- (firstn_skipn (Z.to_nat lo) st) at 1; rewrite ES, <- !app_assoc, E; reflexivity.
  - exfalso; apply E; clear E; destruct H as (a & c & b & -> & ND & NS & NB).
    set (p := a ++ c :: b ++ txt ".json").
    assert (EP : p = (a ++ c :: b) ++ "."%char :: txt "json") by (unfold p; rewrite <- app_assoc; reflexivity).
    assert (ED : rfind "."%char p = zlen (a ++ c :: b)) by (rewrite EP; apply rfind_at, json_no_dot).
    assert (ES : -1 <= rfind "/"%char p < zlen a).
    { destruct (rfind_spec "/"%char p) as [[_ ->]|(a' & b' & EQ & N' & ->)]; [unfold zlen; lia|]; split; [unfold zlen; lia|].
      destruct (Z.lt_ge_cases (zlen a') (zlen a)) as [|G]; [assumption|exfalso].
      assert (L : skipn (length a) p = c :: b ++ txt ".json") by (unfold p; rewrite skipn_app, skipn_all, Nat.sub_diag; reflexivity).
      assert (IN : In "/"%char (skipn (length a) p)).
      { rewrite EQ, skipn_app; apply in_app_iff; right; replace (length a - length a')%nat with O by (unfold zlen in G; lia); left; reflexivity. }
      rewrite L in IN; destruct IN as [G'|G']; [congruence|]; apply in_app_iff in G'; destruct G' as [G'|G']; [exact (NB G')|exact (json_no_sep G')]. }
    unfold extension; rewrite ED; destruct (Z.ltb_spec (rfind "/"%char p) (zlen (a ++ c :: b))) as [_|G]; [|rewrite zlen_app, zlen_cons in G; unfold zlen in *; lia].
    assert (SL : slice p (rfind "/"%char p + 1) (zlen (a ++ c :: b)) = skipn (Z.to_nat (rfind "/"%char p + 1)) (a ++ c :: b)).
    { generalize dependent (rfind "/"%char p); intros z HZ; rewrite EP; apply slice_stem; lia. }
    rewrite SL; replace (existsb _ _) with true.
    + rewrite EP; replace (Z.to_nat (zlen (a ++ c :: b))) with (length (a ++ c :: b)) by (unfold zlen; lia).
      rewrite skipn_app, skipn_all, Nat.sub_diag; reflexivity.
    + symmetry; apply existsb_exists; exists c; split; [|destruct (ascii_dec c "."%char); [contradiction|reflexivity]].
      rewrite skipn_app; apply in_app_iff; right; replace (Z.to_nat (rfind "/"%char p + 1) - length a)%nat with O by (unfold zlen in ES; lia); left; reflexivity.
Qed.

(** ** C62 *)
Lemma writer_constructor {K : Num} (args : list (io_arg K)) : io_new ICurveWriter args = Err TypeError.
Proof. destruct args as [|[f|c] [|[g|c'] t]]; reflexivity. Qed.
Lemma reader_constructor {K : Num} f : io_new (K := K) ICurveReader [ArgFile f] = Ok (mkIoObj (Some f) None).
Proof. reflexivity. Qed.
Lemma to_dict_fails {K : Num} (c : curve_obj K) : to_dict c = Err AttributeError.
Proof. unfold to_dict, to_list_attr; destruct (c_kv c); reflexivity. Qed.
Lemma curve_write_supported {K : Num} dump (c : curve_obj K) name d : supported name = true ->
  curve_write dump c name d = match f_wopen d name with
    | Some e => (d, Err e)
    | None => (put d name [], Err AttributeError)
    end.
Proof.
  intros H; unfold curve_write; rewrite H; unfold ibind, open_w; destruct (f_wopen d name); [reflexivity|]; unfold ret; rewrite to_dict_fails; reflexivity.
Qed.
Lemma curve_write_unsupported {K : Num} dump (c : curve_obj K) name d : supported name = false -> curve_write dump c name d = (d, Err ValueError).
Proof. intros H; unfold curve_write; rewrite H; reflexivity. Qed.
Lemma curve_read_none {K : Num} load (cs : class_state K) name d d' cs' r :
  curve_read load cs name d = (d', cs', r) -> d' = d /\ forall h, r <> Ok (Some h).
Proof.
  unfold curve_read; destruct (supported name); [|intros H; injection H as <- _ <-; split; [reflexivity|discriminate]].
  unfold ibind, open_r; destruct (f_ropen d name); [intros H; injection H as <- _ <-; split; [reflexivity|discriminate]|].
  destruct (f_files d name) as [s|]; [|intros H; injection H as <- _ <-; split; [reflexivity|discriminate]]; unfold ret.
  destruct (load s) as [data|e|]; [|intros H; injection H as <- _ <-; split; [reflexivity|discriminate]|intros H; injection H as <- _ <-; split; [reflexivity|discriminate]].
  destruct (from_dict cs data) as [cs1 [h|e|]]; intros H; injection H as <- _ <-; (split; [reflexivity|discriminate]).
Qed.

(** ** Reading into curve objects *)
Lemma curve_clean_working {K : Num} (cd : codec K) c p a n P kv name d : faithful cd -> kv <> [] -> 1 <= p ->
  check_knot_vector p (NdArray kv) (zlen P) = Ok true -> f_ropen d name = None ->
  f_files d name = Some (unlines (curve_layout (tc_fmt cd) p a (join tabc (map (tc_fmt cd) kv)) n P)) ->
  read_curve_from_txt working_step cd (Some c) name d = (d, Some (mkCurve (Some p) (Some (map row3 P)) (Some kv) (c_dim c)), Ok tt).
Proof.
  intros FA N Hp CK V HF; rewrite (curve_clean_read cd FA working_step c p a n P kv name d N V HF).
  cbn [assign_all working_step]; unfold curve_step, set_degree; destruct (Z.ltb_spec p 1); [lia|].
  unfold set_knot_vector; cbn [c_degree c_ctrl c_kv c_dim bind].
  replace (zlen (map row3 P)) with (zlen P) by (unfold zlen; rewrite map_length; reflexivity); rewrite CK; reflexivity.
Qed.
(** The repository's class: the control points are dropped, so the knot vector is refused. *)
Lemma curve_clean_repo {K : Num} (cd : codec K) c p a n P kv name d : faithful cd -> kv <> [] -> f_ropen d name = None ->
  f_files d name = Some (unlines (curve_layout (tc_fmt cd) p a (join tabc (map (tc_fmt cd) kv)) n P)) -> c_ctrl c = None ->
  exists c', read_curve_from_txt curve_step cd (Some c) name d = (d, Some c', Err ValueError) /\ c_ctrl c' = None /\ c_kv c' = c_kv c.
Proof.
  intros FA N V HF HC; rewrite (curve_clean_read cd FA curve_step c p a n P kv name d N V HF).
  cbn [assign_all]; unfold curve_step, set_degree; destruct (Z.ltb_spec p 1); [exists c; auto|].
  unfold set_control_points; cbn [c_degree c_dim]; destruct (negb _); [eexists; split; [reflexivity|split; cbn; auto]|].
  unfold set_knot_vector; cbn [c_degree c_ctrl c_kv c_dim]; rewrite HC; eexists; split; [reflexivity|split; cbn; auto].
Qed.
