(** * Truncated and extended blobs *)
From Verif Require Import Base BaseFacts TypesModel TypesProofs TypesSpec GeomSpec GeomFacts WkbSpec CppCoordModel CppWkbSpec CppWkbModel
  CppWkbTells WkbReaderProofs CppWkbProofs CppWkbReads CppWkbAccepts.
Local Open Scope Z_scope.

(** The parser with more bytes to come. *)
Definition more (x : bytes) (s : pstate) : pstate :=
  PState (ps_cursor s) (ps_remaining s + Z.of_nat (length x)) (ps_endian s) (ps_dims s) (ps_stride s).

Lemma slice_more src x p k b : slice src p k = Some b -> slice (src ++ x) p k = Some b.
Proof.
  intros H. rewrite slice_app_l; [exact H|].
  assert (exists b, slice src p k = Some b) as Hn by eauto. apply slice_some_iff in Hn. lia.
Qed.

Lemma advance_more x s n : advance (more x s) n = more x (advance s n).
Proof. unfold advance, more. cbn. f_equal. lia. Qed.

Lemma check_more x s n : check_remaining s n = OK -> check_remaining (more x s) n = OK.
Proof.
  unfold check_remaining, more. cbn [ps_remaining]. destruct (Z.leb_spec n (ps_remaining s)); [|discriminate]. intros _.
  destruct (Z.leb_spec n (ps_remaining s + Z.of_nat (length x))); [reflexivity|lia].
Qed.

(** [kept src x r r']: what was decided without running out of bytes stays decided. *)
Definition kept (x : bytes) (r r' : outcome presult) : Prop :=
  forall st s out, r = Ok (st, s, out) -> st <> TOO_FEW_BYTES -> r' = Ok (st, more x s, out).

Lemma read_uint32_more src x s s' n : read_uint32_unchecked src s = Ok (s', n) ->
  read_uint32_unchecked (src ++ x) (more x s) = Ok (more x s', n).
Proof.
  unfold read_uint32_unchecked. cbn [more ps_cursor ps_endian].
  destruct (slice src (ps_cursor s) 4) as [b|] eqn:E; cbn [or_ub obind]; [|discriminate].
  rewrite (slice_more _ _ _ _ _ E). cbn [or_ub obind]. intros H. injection H as <- <-.
  rewrite advance_more. reflexivity.
Qed.

Lemma parse_sequence_more src x s out : kept x (parse_sequence src s out) (parse_sequence (src ++ x) (more x s) out).
Proof.
  intros st s' out' H Hst. unfold parse_sequence in *.
  destruct (check_cases s 4) as [[E1 H1]|[E1 H1]]; rewrite E1 in H; [|injection H as <- <- <-; congruence].
  rewrite (check_more _ _ _ E1).
  destruct (read_uint32_unchecked src s) as [[s1 n]| | |] eqn:E2; cbn [obind] in H; try discriminate.
  rewrite (read_uint32_more _ _ _ _ _ E2). cbn [obind]. change (ps_stride (more x s1)) with (ps_stride s1).
  destruct (check_cases s1 (Z.of_N (8 * n * ps_stride s1))) as [[E3 H3]|[E3 H3]]; rewrite E3 in H;
    [|injection H as <- <- <-; congruence].
  rewrite (check_more _ _ _ E3). unfold new_sequence_at_cursor in *.
  cbn [more ps_cursor ps_stride ps_dims ps_endian] in *. fold (more x s1).
  destruct (append_sequence out _) as [g| | |]; cbn [obind] in *; try discriminate.
  injection H as <- <- <-. rewrite advance_more. reflexivity.
Qed.

Lemma parse_n_more x body body' : (forall s out, kept x (body s out) (body' (more x s) out)) ->
  forall f f' n s out, (f <= f')%nat -> kept x (parse_n f body n s out) (parse_n f' body' n (more x s) out).
Proof.
  intros Hb. induction f as [|f IH]; intros f' n s out Hf st s' out' H Hst.
  - cbn [parse_n] in H. destruct (N.eqb_spec n 0) as [->|]; [|discriminate]. injection H as <- <- <-.
    apply parse_n_zero.
  - destruct f' as [|f']; [lia|]. destruct (N.eq_dec n 0) as [->|Hn].
    { rewrite parse_n_zero in *. injection H as <- <- <-. reflexivity. }
    rewrite parse_n_succ in * by lia.
    destruct (body s out) as [[[st1 s1] out1]| | |] eqn:E1; cbn [obind] in H; try discriminate.
    assert (st1 <> TOO_FEW_BYTES) as Hst1.
    { destruct st1; try discriminate. injection H as <- <- <-. exact Hst. }
    rewrite (Hb _ _ _ _ _ E1 Hst1). cbn [obind]. destruct st1; try (injection H as <- <- <-; reflexivity).
    apply (IH f' _ _ _ ltac:(lia) _ _ _ H Hst).
Qed.

Lemma parse_member_more x geometry geometry' :
  (forall s out, kept x (geometry s out) (geometry' (more x s) out)) ->
  forall s out, kept x (parse_member geometry s out) (parse_member geometry' (more x s) out).
Proof.
  intros Hg s out st s' out' H Hst. unfold parse_member in *.
  destruct (append_geometry out) as [[g child]| | |]; cbn [obind] in *; try discriminate.
  destruct (geometry s child) as [[[st1 s1] c1]| | |] eqn:E1; cbn [obind] in H; try discriminate.
  destruct (set_last_geometry g c1) as [g2| | |] eqn:E2; cbn [obind] in H; try discriminate.
  injection H as <- <- <-. rewrite (Hg _ _ _ _ _ E1 Hst). cbn [obind]. rewrite E2. reflexivity.
Qed.

Lemma parse_header_more src x s out st s' out' t : parse_header src s out = Ok (st, s', out', t) ->
  st <> TOO_FEW_BYTES -> parse_header (src ++ x) (more x s) out = Ok (st, more x s', out', t).
Proof.
  intros H Hst. unfold parse_header in *.
  destruct (check_cases s 5) as [[E1 H1]|[E1 H1]]; rewrite E1 in H; [|injection H as <- <- <- <-; congruence].
  rewrite (check_more _ _ _ E1). unfold read_endian_unchecked in *. cbn [more ps_cursor] in *.
  destruct (slice src (ps_cursor s) 1) as [b|] eqn:E2; cbn [or_ub obind] in H; [|discriminate].
  rewrite (slice_more _ _ _ _ _ E2). cbn [or_ub obind].
  destruct ((le_val b =? 1) || (le_val b =? 0))%N%bool.
  2:{ cbn [obind] in *. injection H as <- <- <- <-. reflexivity. }
  cbn [obind] in *. cbn [ps_remaining ps_dims ps_stride].
  match type of H with context[read_uint32_unchecked src ?a] => set (s1 := a) in * end.
  match goal with |- context[read_uint32_unchecked _ ?a] => replace a with (more x s1) end.
  2:{ unfold s1. rewrite <- advance_more. reflexivity. }
  destruct (read_uint32_unchecked src s1) as [[s2 w]| | |] eqn:E3; cbn [obind] in H; try discriminate.
  rewrite (read_uint32_more _ _ _ _ _ E3). cbn [obind]. unfold parse_srid in *.
  destruct (word_has w kEWKBSrid).
  - destruct (check_cases s2 4) as [[E4 H4]|[E4 H4]]; rewrite E4 in H; [|cbn [obind] in H; injection H as <- <- <- <-; congruence].
    rewrite (check_more _ _ _ E4).
    destruct (read_uint32_unchecked src s2) as [[s3 n]| | |] eqn:E5; cbn [obind] in H; try discriminate.
    rewrite (read_uint32_more _ _ _ _ _ E5). cbn [obind]. injection H as <- <- <- <-. reflexivity.
  - cbn [obind] in *. injection H as <- <- <- <-. reflexivity.
Qed.

Lemma parse_geometry_more src x : forall f f' s out, (f <= f')%nat ->
  kept x (parse_geometry src f s out) (parse_geometry (src ++ x) f' (more x s) out).
Proof.
  induction f as [|f IH]; intros f' s out Hf st s' out' H Hst; [discriminate|].
  destruct f' as [|f']; [lia|]. rewrite parse_geometry_unfold in *.
  destruct (parse_header src s (reset out)) as [[[[st1 s1] out1] t]| | |] eqn:E1; cbn [obind] in H; try discriminate.
  assert (st1 <> TOO_FEW_BYTES) as Hst1.
  { destruct st1; try discriminate. injection H as <- <- <-. exact Hst. }
  rewrite (parse_header_more _ x _ _ _ _ _ _ E1 Hst1). cbn [obind].
  destruct st1; try (injection H as <- <- <-; reflexivity). unfold dispatch in *.
  destruct (N.eqb t 1).
  { unfold parse_point in *. change (ps_stride (more x s1)) with (ps_stride s1).
    destruct (check_cases s1 (Z.of_N (ps_stride s1 * 8))) as [[E2 H2]|[E2 H2]]; rewrite E2 in H;
      [|injection H as <- <- <-; congruence].
    rewrite (check_more _ _ _ E2). unfold new_sequence_at_cursor in *. cbn [more ps_cursor ps_stride ps_dims ps_endian] in *.
    fold (more x s1). destruct (append_sequence _ _) as [g| | |]; cbn [obind] in *; try discriminate.
    injection H as <- <- <-. rewrite advance_more. reflexivity. }
  destruct (N.eqb t 2).
  { apply (parse_sequence_more _ _ _ _ _ _ _ H Hst). }
  destruct (N.eqb t 3).
  { unfold parse_polygon in *.
    destruct (check_cases s1 4) as [[E2 H2]|[E2 H2]]; rewrite E2 in H; [|injection H as <- <- <-; congruence].
    rewrite (check_more _ _ _ E2).
    destruct (read_uint32_unchecked src s1) as [[s2 n]| | |] eqn:E3; cbn [obind] in H; try discriminate.
    rewrite (read_uint32_more _ _ _ _ _ E3). cbn [obind].
    apply (parse_n_more x (parse_sequence src) (parse_sequence (src ++ x)) (parse_sequence_more src x) f f' n s2 _ ltac:(lia)
             _ _ _ H Hst). }
  destruct ((t =? 4) || (t =? 5) || (t =? 6) || (t =? 7))%N%bool.
  { unfold parse_collection in *.
    destruct (check_cases s1 4) as [[E2 H2]|[E2 H2]]; rewrite E2 in H; [|injection H as <- <- <-; congruence].
    rewrite (check_more _ _ _ E2).
    destruct (read_uint32_unchecked src s1) as [[s2 n]| | |] eqn:E3; cbn [obind] in H; try discriminate.
    rewrite (read_uint32_more _ _ _ _ _ E3). cbn [obind].
    refine (parse_n_more x (parse_member (parse_geometry src f)) (parse_member (parse_geometry (src ++ x) f')) _ f f' n s2 _ _
             _ _ _ H Hst); [|lia].
    apply parse_member_more. intros s0 out0. apply IH. lia. }
  injection H as <- <- <-. reflexivity.
Qed.

(** ** Parse *)

Lemma start_sync src (s0 : pstate) :
  sync src (PState 0 (Z.of_nat (length src)) (ps_endian s0) (ps_dims s0) (ps_stride s0)).
Proof. constructor; cbn; lia. Qed.

(** Every call returns; what it records is inside the blob; the cursor is set exactly when a geometry was read, to its
    end. *)
Lemma parse_any src s0 out : wf_bytes src ->
  exists st cur s' out', parse src s0 out = Ok (st, cur, s', out') /\ inside src out' /\
    match cur with
    | Some c => exists t rest, tree_ok t /\ src = tree_bytes t ++ rest /\ c = Z.of_nat (length (tree_bytes t)) /\
                  st = match rest with [] => OK | _ => TOO_MANY_BYTES end /\ tells src out' t
    | None => st = TOO_FEW_BYTES \/ st = INVALID_ENDIAN \/ st = INVALID_GEOMETRY_TYPE
    end.
Proof.
  intros Hwf. pose proof (start_sync src s0) as Hs.
  destruct (parse_geometry_any src Hwf (S (length src)) _ out Hs) as (st & s' & out' & E & Hst & Hmv & Hin & Hok).
  { cbn [ps_remaining]. lia. }
  destruct st; try congruence;
    try (unfold parse; rewrite E; cbn [obind]; eexists _, _, _, _; split; [reflexivity|]; split; [exact Hin|auto]).
  destruct (Hok eq_refl) as (t & rest & Htok & (pre & Esrc & Hpre) & Hr).
  destruct pre; [|cbn in Hpre; lia]. cbn [app] in Esrc.
  destruct (parse_ok t rest s0 out Htok) as (s2 & out2 & E2 & Htell). rewrite <- Esrc in E2, Htell.
  assert (s2 = s' /\ out2 = out') as [-> ->].
  { unfold parse in E2. rewrite E in E2. cbn [obind] in E2.
    destruct (ps_cursor s' <? Z.of_nat (length src)); injection E2 as _ _ -> ->; auto. }
  rewrite E2. eexists _, _, _, _. split; [reflexivity|]. split; [exact Hin|].
  exists t, rest. auto.
Qed.

Lemma wf_bytes_prefix p rest : wf_bytes (p ++ rest) -> wf_bytes p.
Proof. intros H. apply wf_bytes_app in H. apply H. Qed.

Lemma enc32_wf e n : wf_bytes (enc32 e n).
Proof. destruct e; [apply le_bytes_wf|apply be_bytes_wf]. Qed.
Lemma enc64_wf e n : wf_bytes (enc64 e n).
Proof. destruct e; [apply le_bytes_wf|apply be_bytes_wf]. Qed.

Lemma flat_map_wf {A} (f : A -> bytes) l : (forall a, wf_bytes (f a)) -> wf_bytes (flat_map f l).
Proof. intros H. induction l; [constructor|]. cbn [flat_map]. apply wf_bytes_app. auto. Qed.

Lemma enc_coords_wf e cs : wf_bytes (enc_coords e cs).
Proof. apply flat_map_wf. intros c. apply flat_map_wf. apply enc64_wf. Qed.

Lemma header_bytes_wf h : wf_bytes (header_bytes h).
Proof.
  unfold header_bytes. apply wf_bytes_app. split.
  - constructor; [|constructor]. destruct (h_endian h); cbn; unfold is_byte; lia.
  - apply wf_bytes_app. split; [apply enc32_wf|]. destruct (h_srid h); [apply enc32_wf|constructor].
Qed.

Lemma tree_bytes_wf t : wf_bytes (tree_bytes t).
Proof.
  induction t as [h d c|h d cs|h d rings|h k d parts IH] using tree_ind'; cbn [tree_bytes];
    apply wf_bytes_app; (split; [apply header_bytes_wf|]).
  - apply flat_map_wf. apply enc64_wf.
  - apply wf_bytes_app. split; [apply enc32_wf|apply enc_coords_wf].
  - apply wf_bytes_app. split; [apply enc32_wf|]. apply flat_map_wf. intros r. apply wf_bytes_app.
    split; [apply enc32_wf|apply enc_coords_wf].
  - apply wf_bytes_app. split; [apply enc32_wf|]. induction IH; [constructor|]. cbn [flat_map]. apply wf_bytes_app. auto.
Qed.

(** Nothing that was refused for another reason than missing bytes becomes readable with more of them. *)
Lemma parse_invalid src s0 out st cur s' out' : wf_bytes src -> parse src s0 out = Ok (st, cur, s', out') ->
  st = INVALID_ENDIAN \/ st = INVALID_GEOMETRY_TYPE ->
  forall x t rest, tree_ok t -> src ++ x <> tree_bytes t ++ rest.
Proof.
  intros Hwf E Hst x t rest Htok Eq. unfold parse in E.
  match type of E with context[parse_geometry _ _ ?a _] => set (s := a) in * end.
  destruct (parse_geometry src (S (length src)) s out) as [[[st1 s1] out1]| | |] eqn:E1; cbn [obind] in E; try discriminate.
  assert (st1 = INVALID_ENDIAN \/ st1 = INVALID_GEOMETRY_TYPE) as Hst1.
  { destruct st1; try (injection E as <- _ _ _; exact Hst).
    destruct (ps_cursor s1 <? Z.of_nat (length src)); injection E as <- _ _ _; destruct Hst; discriminate. }
  assert (S (length src) <= S (length (src ++ x)))%nat as Hf by (rewrite app_length; lia).
  pose proof (parse_geometry_more src x _ _ s out Hf _ _ _ E1 ltac:(destruct Hst1; congruence)) as E2.
  destruct (parse_geometry_ok (src ++ x) t rest (more x s) (length (src ++ x)) out Htok) as (s3 & out3 & E3 & _).
  { cbn [more s ps_cursor]. rewrite Eq. apply tail_at_0. }
  { cbn [more s ps_remaining]. apply (f_equal (@length N)) in Eq. rewrite !app_length in Eq. lia. }
  { apply (f_equal (@length N)) in Eq. rewrite !app_length in *. lia. }
  rewrite E2 in E3. injection E3 as -> _ _. destruct Hst1; discriminate.
Qed.

(** Missing bytes. *)
Lemma parse_truncated t p s0 out : tree_ok t -> strict_prefix p (tree_bytes t) ->
  exists s' out', parse p s0 out = Ok (TOO_FEW_BYTES, None, s', out') /\ inside p out'.
Proof.
  intros Htok (rest & Hne & Eq).
  assert (wf_bytes p) as Hwf by (apply (wf_bytes_prefix p rest); rewrite <- Eq; apply tree_bytes_wf).
  destruct (parse_any p s0 out Hwf) as (st & cur & s' & out' & E & Hin & Hcur).
  destruct cur as [c|].
  - exfalso. destruct Hcur as (t' & rest' & Htok' & Ep & _). rewrite Ep, <- app_assoc in Eq.
    (* both are read from the front of the same bytes *)
    destruct (parse_ok t [] s0 out Htok) as (s1 & o1 & E1 & _).
    destruct (parse_ok t' (rest' ++ rest) s0 out Htok') as (s2 & o2 & E2 & _).
    rewrite app_nil_r, Eq, E2 in E1. injection E1 as H _ _ _.
    destruct (rest' ++ rest) eqn:Er; [|discriminate]. apply app_eq_nil in Er. destruct Er. contradiction.
  - destruct Hcur as [-> | Hst]; [eauto|]. exfalso.
    apply (parse_invalid p s0 out st None s' out' Hwf E Hst rest t [] Htok). rewrite app_nil_r. symmetry. exact Eq.
Qed.

(** Accepted blobs. *)
Lemma parse_accepted src s0 out cur s' out' : wf_bytes src -> parse src s0 out = Ok (OK, cur, s', out') ->
  exists t, tree_ok t /\ src = tree_bytes t /\ cur = Some (Z.of_nat (length src)) /\ tells src out' t.
Proof.
  intros Hwf E. destruct (parse_any src s0 out Hwf) as (st & cur2 & s2 & out2 & E2 & _ & Hcur).
  rewrite E in E2. injection E2 as <- <- <- <-. destruct cur as [c|].
  - destruct Hcur as (t & rest & Htok & Es & Ec & Est & Htell). destruct rest; [|discriminate].
    rewrite app_nil_r in Es. exists t. rewrite <- Es in Ec. subst c. auto.
  - destruct Hcur as [H|[H|H]]; discriminate.
Qed.

(** ** ISO and EWKB *)

Lemma type_word_announces s srid d base : (1 <= base <= 7)%N -> announces (type_word s srid d base) srid d base.
Proof.
  intros H. assert (base = 1 \/ base = 2 \/ base = 3 \/ base = 4 \/ base = 5 \/ base = 6 \/ base = 7)%N as Hb by lia.
  unfold announces. destruct srid as [n|]; destruct s, d;
    (destruct Hb as [->|[->|[->|[->|[->|[->| ->]]]]]]; vm_compute; intuition congruence).
Qed.

Lemma wf_geoms_Forall gs : wf_geoms gs -> Forall wf_geom gs.
Proof. induction gs; intros H; inversion H; subst; constructor; auto. Qed.

Lemma wkb_tree g b : wkb g b -> wf_geom g ->
  exists t, tree_ok t /\ tree_geom t = g /\ tree_bytes t = b.
Proof.
  revert b. induction g as [d cs|d cs|d rings|k d parts IH] using geom_ind'; intros b Hw Hwf;
    inversion Hw; subst; clear Hw; inversion Hwf; subst; clear Hwf.
  - exists (TPoint (Header e (type_word s srid d 1) srid) d c). split; [|split; reflexivity].
    constructor; [split; [apply type_word_announces; lia|assumption]|].
    match goal with H : wf_seq _ _ |- _ => inversion H; subst end. assumption.
  - exists (TLine (Header e (type_word s srid d 2) srid) d cs). split; [|split; [reflexivity|]].
    + constructor; [split; [apply type_word_announces; lia|assumption]|assumption|assumption].
    + reflexivity.
  - exists (TPoly (Header e (type_word s srid d 3) srid) d rings). split; [|split; reflexivity].
    constructor; try assumption. split; [apply type_word_announces; lia|assumption].
  - match goal with H : wf_geoms _ |- _ => apply wf_geoms_Forall in H; rename H into Hwf end.
    assert (exists ts, Forall tree_ok ts /\ map tree_geom ts = parts /\ flat_map tree_bytes ts = b0) as (ts & A1 & A2 & A3).
    { match goal with H : wkb_parts _ _ |- _ => rename H into Hp end. clear -IH Hp Hwf.
      revert b0 Hp. induction IH as [|g gs Hg IH IH2]; intros b Hp; inversion Hp; subst; clear Hp.
      - exists []. auto.
      - inversion Hwf; subst. destruct (Hg b1 ltac:(assumption) ltac:(assumption)) as (t & T1 & T2 & T3).
        destruct (IH2 ltac:(assumption) b2 ltac:(assumption)) as (ts & A1 & A2 & A3).
        exists (t :: ts). cbn [map flat_map]. rewrite T2, A2, T3, A3. auto. }
    assert (length ts = length parts) as Hl by (rewrite <- A2, map_length; reflexivity).
    exists (TColl (Header e (type_word s srid d (coll_code k)) srid) k d ts). split; [|split].
    + constructor; [split; [apply type_word_announces; destruct (coll_code_ok k); lia|assumption]| |exact A1].
      unfold count_ok in *. rewrite Hl. assumption.
    + cbn [tree_geom]. rewrite A2. reflexivity.
    + cbn [tree_bytes]. unfold count_bytes. rewrite Hl, A3. reflexivity.
Qed.
