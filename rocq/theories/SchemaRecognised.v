(** * Proofs about schemas: which schemas are recognised *)
From Verif Require Import Base BaseFacts Text BufferModel TypesModel TypesSpec MetadataModel MetadataProofs SchemaModel SchemaSpec SchemaMetadata SchemaProofs.
Local Open Scope Z_scope.

Lemma same_bytes_false a b : same_bytes a b = false -> a <> b.
Proof. intros H ->. rewrite same_bytes_refl in H. discriminate. Qed.

Definition decides {A} (o : outcome A) (P : A -> Prop) : Prop := quiet o /\ forall a, o = Ok a <-> P a.
Lemma decides_err {A} (P : A -> Prop) : (forall a, ~ P a) -> decides (Err EINVAL) P.
Proof. intros H. split; [right; reflexivity|]. intros a. split; [discriminate | intros Ha; destruct (H a Ha)]. Qed.
Lemma decides_ok {A} (P : A -> Prop) a : P a -> (forall b, P b -> b = a) -> decides (Ok a) P.
Proof. intros H U. split; [left; eauto|]. intros b. split; [intros [= <-]; exact H | intros Hb; f_equal; symmetry; auto]. Qed.

(** ** Dimensions *)
Lemma dim_names_inj d d' : dim_names d = dim_names d' -> d = d'.
Proof. destruct d, d'; try reflexivity; intros H; vm_compute in H; discriminate. Qed.
Lemma named_dimensions_some n z : named_dimensions n = Some z -> exists d, n = dim_names d /\ z = dim_code d.
Proof.
  unfold named_dimensions.
  destruct (same_bytes n $"xy") eqn:E1; [apply same_bytes_eq in E1; intros [= <-]; exists XY; split; [exact E1 | reflexivity]|].
  destruct (same_bytes n $"xyz") eqn:E2; [apply same_bytes_eq in E2; intros [= <-]; exists XYZ; split; [exact E2 | reflexivity]|].
  destruct (same_bytes n $"xym") eqn:E3; [apply same_bytes_eq in E3; intros [= <-]; exists XYM; split; [exact E3 | reflexivity]|].
  destruct (same_bytes n $"xyzm") eqn:E4; [apply same_bytes_eq in E4; intros [= <-]; exists XYZM; split; [exact E4 | reflexivity]|].
  discriminate.
Qed.
Lemma named_dimensions_of d : named_dimensions (dim_names d) = Some (dim_code d).
Proof. destruct d; reflexivity. Qed.
Lemma named_dimensions_none n : named_dimensions n = None -> forall d, n <> dim_names d.
Proof. intros H d ->. rewrite named_dimensions_of in H. discriminate. Qed.

(** ** Separate coordinates *)
Lemma child_names_decides cs : Forall well_formed cs ->
  decides (coord_child_names (map Some cs)) (fun names => Forall2 doubles (map Some cs) (map (fun c => [c]) names)).
Proof.
  induction 1 as [|c cs Hc Hcs IH]; cbn [map coord_child_names].
  { apply decides_ok; [constructor|]. intros b Hb. destruct b; [reflexivity | inversion Hb]. }
  destruct (sc_name c) as [[|x [|y r]]|] eqn:En;
    try (apply decides_err; intros a Ha; destruct a as [|b a]; [inversion Ha|];
         cbn [map] in Ha; inversion Ha as [|? ? ? ? (s' & Es & _ & Hs') _]; subst; injection Es as <-; congruence).
  destruct (wf_format c Hc) as (f & Ef). unfold format_of. rewrite Ef. cbn [or_ub obind].
  destruct (same_bytes f $"g") eqn:Eg; cbn [negb].
  2:{ apply decides_err. intros a Ha. destruct a as [|b a]; [inversion Ha|].
      cbn [map] in Ha. inversion Ha as [|? ? ? ? (s' & Es & Hf & Hs') _]; subst. injection Es as <-.
      apply same_bytes_false in Eg. congruence. }
  apply same_bytes_eq in Eg. subst f.
  destruct IH as [[[r Er]|Er] IH]; rewrite Er; cbn [obind].
  - apply decides_ok.
    + cbn [map]. constructor; [|apply IH; exact Er]. exists c. repeat split; assumption.
    + intros b Hb. destruct b as [|b0 b]; [inversion Hb|]. cbn [map] in Hb.
      inversion Hb as [|? ? ? ? (s' & Es & Hf & Hs') Hr]; subst. injection Es as <-.
      assert (b0 = x) as -> by congruence. f_equal. apply IH in Hr. congruence.
  - apply decides_err. intros a Ha. destruct a as [|b a]; [inversion Ha|]. cbn [map] in Ha.
    inversion Ha as [|? ? ? ? _ Hr]; subst. apply IH in Hr. congruence.
Qed.

Lemma wf_forall s : well_formed s -> exists cs, sc_children s = map Some cs /\ Forall well_formed cs.
Proof. intros H. destruct (wf_children s H) as (cs & E & Hc). exists cs. split; [exact E | apply Forall_forall; exact Hc]. Qed.

Lemma struct_decides s : well_formed s -> sc_format s = Some $"+s" ->
  decides (parse_point_struct s) (fun x => exists d, x = (dim_code d, CT_SEPARATE) /\ separate d s).
Proof.
  intros W F. destruct (wf_forall s W) as (cs & E & Hc). unfold parse_point_struct, separate, n_children. rewrite E, F.
  destruct (child_names_decides cs Hc) as [Q D].
  destruct ((Z.of_nat (length (map Some cs)) <? 2) || (4 <? Z.of_nat (length (map Some cs)))) eqn:En.
  { apply decides_err. intros a (d & -> & _ & H2). apply Forall2_length in H2. rewrite !map_length in *.
    assert (2 <= length (dim_names d) <= 4)%nat by (destruct d; vm_compute; lia). lia. }
  destruct Q as [[n En']|En']; rewrite En'; cbn [obind].
  2:{ apply decides_err. intros a (d & -> & _ & H2). apply D in H2. congruence. }
  destruct (named_dimensions n) as [z|] eqn:Ed.
  - apply named_dimensions_some in Ed as (d & -> & ->). apply decides_ok.
    + exists d. split; [reflexivity|]. split; [reflexivity|]. apply D. exact En'.
    + intros b (d' & -> & _ & H2). apply D in H2. rewrite En' in H2. injection H2 as H2. apply dim_names_inj in H2. subst. reflexivity.
  - apply decides_err. intros a (d & -> & _ & H2). apply D in H2. rewrite En' in H2. injection H2 as ->.
    rewrite named_dimensions_of in Ed. discriminate.
Qed.

(** ** Interleaved coordinates *)
Lemma size_text d : exists c, size_format d = $"+w:" ++ [c] /\ (49 <= c <= 57)%N /\ Z.of_N c - 48 = Z.of_nat (length (dim_names d)).
Proof.
  destruct d; [exists 50%N | exists 51%N | exists 51%N | exists 52%N]; (split; [reflexivity | split; [lia | vm_compute; reflexivity]]).
Qed.
Lemma num_dimensions_of d : num_dimensions (dim_code d) = Some (Z.of_nat (length (dim_names d))).
Proof. destruct d; reflexivity. Qed.

Lemma list_decides s t : well_formed s -> sc_format s = Some ($"+w:" ++ t) ->
  decides (parse_point_fixed_size_list s) (fun x => exists d, x = (dim_code d, CT_INTERLEAVED) /\ interleaved d s).
Proof.
  intros W F. destruct (wf_forall s W) as (cs & E & Hc).
  assert (Ht : numeral t /\ numeral_value t < 2147483648).
  { destruct W. cbn [sc_format] in F. injection F as ->. auto. }
  destruct Ht as [Hn Hv].
  unfold parse_point_fixed_size_list.
  destruct (Z.eqb_spec (n_children s) 1) as [E1|E1]; cbn [negb].
  2:{ apply decides_err. intros a (d & -> & _ & c & E2 & _). apply E1. unfold n_children. rewrite E2. reflexivity. }
  assert (exists c, cs = [c]) as (c & ->).
  { unfold n_children in E1. rewrite E, map_length in E1. destruct cs as [|c [|]]; cbn [length] in E1; try lia. eauto. }
  cbn [map] in E. inversion Hc as [|? ? Wc _]; subst.
  unfold child. rewrite E. cbn [nth_error obind].
  destruct (wf_format c Wc) as (fc & Fc). unfold format_of. rewrite Fc. cbn [or_ub obind].
  destruct (same_bytes fc $"g") eqn:Eg; cbn [negb].
  2:{ apply decides_err. intros a (d & -> & _ & c' & E2 & Hg & _). rewrite E in E2. injection E2 as <-.
      apply same_bytes_false in Eg. congruence. }
  apply same_bytes_eq in Eg. subst fc.
  destruct (arrow_view_ok s ($"+w:" ++ t) TFixedSizeList (numeral_value t) W F) as (v & -> & _ & Ez).
  { discriminate. }
  { vm_compute. intros HH. repeat (destruct HH as [HH|HH]; [discriminate|]). exact HH. }
  { intros HH. apply (f_equal (@length N)) in HH. rewrite app_length in HH. vm_compute in HH. discriminate. }
  { apply parse_size_format; assumption. }
  { right. left. split; [right; reflexivity | exact E1]. }
  cbn [obind]. rewrite Ez.
  assert (SZ : forall d, $"+w:" ++ t = size_format d <-> numeral_value t = Z.of_nat (length (dim_names d))).
  { intros d. destruct (size_text d) as (k & Ek & Hk & Lk). rewrite Ek, <- Lk. split.
    - intros H. apply app_inv_head in H. subst t. unfold numeral_value. cbn [fold_left]. lia.
    - intros H. f_equal. apply numeral_small; assumption. }
  assert (IL : forall d, interleaved d s <-> numeral_value t = Z.of_nat (length (dim_names d)) /\
     (sc_name c = Some (dim_names d) \/ (d <> XYM /\ forall d', sc_name c <> Some (dim_names d')))).
  { intros d. unfold interleaved. rewrite F, E. split.
    - intros (Hs & c' & [= <-] & _ & Hc'). split; [apply SZ; congruence | exact Hc'].
    - intros (Hs & Hc'). split; [f_equal; apply SZ; exact Hs|]. exists c. repeat split; assumption. }
  destruct (named_dimensions (match sc_name c with Some n => n | None => $"<NULL>" end)) as [z|] eqn:Ed.
  - apply named_dimensions_some in Ed as (d & Ed & ->).
    assert (Nm : sc_name c = Some (dim_names d)).
    { destruct (sc_name c) as [nm|]; [congruence|]. exfalso. destruct d; vm_compute in Ed; discriminate. }
    rewrite num_dimensions_of. cbn [or_ub obind].
    destruct (Z.eqb_spec (Z.of_nat (length (dim_names d))) (numeral_value t)) as [Es|Es]; cbn [negb].
    + apply decides_ok.
      * exists d. split; [reflexivity|]. apply IL. split; [symmetry; exact Es | left; exact Nm].
      * intros b (d' & -> & H). apply IL in H as (_ & [H|[_ H]]); [|destruct (H d Nm)].
        rewrite Nm in H. injection H as H. apply dim_names_inj in H. subst. reflexivity.
    + apply decides_err. intros a (d' & -> & H). apply IL in H as (H1 & [H|[_ H]]); [|destruct (H d Nm)].
      rewrite Nm in H. injection H as H. apply dim_names_inj in H. subst. congruence.
  - assert (Nm : forall d, sc_name c <> Some (dim_names d)).
    { intros d Hd. rewrite Hd in Ed. rewrite named_dimensions_of in Ed. discriminate. }
    assert (Case : forall z d, (z = numeral_value t) -> Z.of_nat (length (dim_names d)) = z -> d <> XYM ->
      decides (do expected <- or_ub (num_dimensions (dim_code d)); (if negb (expected =? z) then Err EINVAL else Ok (dim_code d, CT_INTERLEAVED)))
        (fun x => exists d, x = (dim_code d, CT_INTERLEAVED) /\ interleaved d s)).
    { intros z d Hz Hl Hd. rewrite num_dimensions_of. cbn [or_ub obind]. rewrite Hl, Z.eqb_refl. cbn [negb]. apply decides_ok.
      - exists d. split; [reflexivity|]. apply IL. split; [congruence | right; split; assumption].
      - intros b (d' & -> & H). apply IL in H as (H1 & [H|[Hd' _]]); [destruct (Nm d' H)|].
        assert (length (dim_names d) = length (dim_names d')) as EL by lia.
        destruct d, d'; try contradiction; vm_compute in EL; try discriminate; reflexivity. }
    destruct (Z.eqb_spec (numeral_value t) 2) as [E2|E2].
    { rewrite E2. apply (Case 2 XY); [symmetry; exact E2 | reflexivity | discriminate]. }
    destruct (Z.eqb_spec (numeral_value t) 3) as [E3|E3].
    { rewrite E3. apply (Case 3 XYZ); [symmetry; exact E3 | reflexivity | discriminate]. }
    destruct (Z.eqb_spec (numeral_value t) 4) as [E4|E4].
    { rewrite E4. apply (Case 4 XYZM); [symmetry; exact E4 | reflexivity | discriminate]. }
    apply decides_err. intros a (d' & -> & H). apply IL in H as (H1 & _).
    rewrite H1 in *. destruct d'; [exact (E2 eq_refl) | exact (E3 eq_refl) | exact (E3 eq_refl) | exact (E4 eq_refl)].
Qed.

(** ** Nested lists *)
Lemma plus_s_not_w t : $"+s" <> $"+w:" ++ t.
Proof. discriminate. Qed.
Lemma firstn3 f : same_bytes (firstn 3 f) $"+w:" = true -> f = $"+w:" ++ skipn 3 f.
Proof. intros H. apply same_bytes_eq in H. rewrite <- H at 1. symmetry. apply firstn_skipn. Qed.

Lemma coords_format d l s : coords d l s -> match l with Separate => sc_format s = Some $"+s" | Interleaved => exists t, sc_format s = Some ($"+w:" ++ t) end.
Proof.
  destruct l; intros H; [exact (proj1 H)|]. destruct H as [H _]. destruct (size_text d) as (c & E & _). rewrite E in H. eauto.
Qed.

Lemma nested_decides n : forall s, well_formed s ->
  decides (parse_nested_schema n s) (fun x => exists d l, x = (dim_code d, layout_code l) /\ lists n (coords d l) s).
Proof.
  induction n as [|n IH]; intros s W; destruct (wf_format s W) as (f & F); cbn [parse_nested_schema]; unfold format_of at 1;
    rewrite F; cbn [or_ub obind].
  - destruct (same_bytes f $"+s") eqn:E1.
    { apply same_bytes_eq in E1. subst f. destruct (struct_decides s W F) as [Q D]. split; [exact Q|]. intros a. rewrite D. split.
      - intros (d & -> & H). exists d, Separate. split; [reflexivity | exact H].
      - intros (d & l & -> & H). cbn [lists] in H. pose proof (coords_format _ _ _ H) as CF. destruct l; [exists d; split; [reflexivity | exact H]|].
        exfalso. destruct CF as (t & CF). rewrite F in CF. discriminate. }
    destruct (same_bytes (firstn 3 f) $"+w:") eqn:E2.
    { apply firstn3 in E2. rewrite E2 in F. destruct (list_decides s _ W F) as [Q D]. split; [exact Q|]. intros a. rewrite D. split.
      - intros (d & -> & H). exists d, Interleaved. split; [reflexivity | exact H].
      - intros (d & l & -> & H). cbn [lists] in H. pose proof (coords_format _ _ _ H) as CF. destruct l; [|exists d; split; [reflexivity | exact H]].
        exfalso. rewrite F in CF. discriminate. }
    apply decides_err. intros a (d & l & -> & H). cbn [lists] in H. pose proof (coords_format _ _ _ H) as CF. destruct l.
    + rewrite F in CF. injection CF as ->. rewrite same_bytes_refl in E1. discriminate.
    + destruct CF as (t & CF). rewrite F in CF. injection CF as ->. change (firstn 3 ($"+w:" ++ t)) with $"+w:" in E2.
      rewrite same_bytes_refl in E2. discriminate.
  - destruct (same_bytes f $"+l") eqn:E1; cbn [negb orb].
    2:{ apply decides_err. intros a (d & l & -> & H). destruct H as [H _]. rewrite F in H. injection H as ->.
        rewrite same_bytes_refl in E1. discriminate. }
    apply same_bytes_eq in E1. subst f.
    destruct (Z.eqb_spec (n_children s) 1) as [E1|E1]; cbn [negb].
    2:{ apply decides_err. intros a (d & l & -> & H). destruct H as [_ (c & E2 & _)]. apply E1. unfold n_children. rewrite E2. reflexivity. }
    destruct (wf_forall s W) as (cs & E & Hc).
    assert (exists c, cs = [c]) as (c & ->).
    { unfold n_children in E1. rewrite E, map_length in E1. destruct cs as [|c [|]]; cbn [length] in E1; try lia. eauto. }
    cbn [map] in E. inversion Hc as [|? ? Wc _]; subst. unfold child. rewrite E. cbn [nth_error obind].
    destruct (IH c Wc) as [Q D]. split; [exact Q|]. intros a. rewrite D. cbn [lists]. rewrite F, E. split.
    + intros (d & l & -> & H). exists d, l. split; [reflexivity|]. split; [reflexivity|]. exists c. split; [reflexivity | exact H].
    + intros (d & l & -> & _ & c' & [= <-] & H). exists d, l. split; [reflexivity | exact H].
Qed.

(** ** Boxes *)
Lemma box_child_ok c x m : well_formed c ->
  parse_box_child c = Ok (x, m) -> exists y z w, m = [y; z; w] /\ sc_format c = Some $"g" /\ sc_name c = Some (x :: m).
Proof.
  intros W. unfold parse_box_child. destruct (sc_name c) as [[|a [|b [|d [|e [|]]]]]|]; try discriminate.
  destruct (wf_format c W) as (f & F). unfold format_of. rewrite F. cbn [or_ub obind].
  destruct (same_bytes f $"g") eqn:E; cbn [negb]; [|discriminate]. apply same_bytes_eq in E. subst f.
  intros [= <- <-]. exists b, d, e. repeat split; assumption.
Qed.
Lemma box_child_quiet c : well_formed c -> quiet (parse_box_child c).
Proof.
  intros W. unfold parse_box_child. destruct (sc_name c) as [[|a [|b [|d [|e [|]]]]]|]; try (right; reflexivity).
  destruct (wf_format c W) as (f & F). unfold format_of. rewrite F. cbn [or_ub obind].
  destruct (negb _); [right; reflexivity | left; eauto].
Qed.
Lemma box_child_of c x m : doubles (Some c) (x :: m) -> length m = 3%nat -> parse_box_child c = Ok (x, m).
Proof.
  intros (s & [= <-] & F & N) L. unfold parse_box_child. rewrite N. destruct m as [|b [|d [|e [|]]]]; try discriminate.
  unfold format_of. rewrite F. cbn [or_ub obind]. rewrite same_bytes_refl. reflexivity.
Qed.

Lemma box_min_decides cs : Forall well_formed cs ->
  decides (parse_box_min (map Some cs)) (fun names => Forall2 doubles (map Some cs) (map (fun c => [c] ++ $"min") names)).
Proof.
  induction 1 as [|c cs Hc Hcs IH]; cbn [map parse_box_min].
  { apply decides_ok; [constructor|]. intros b Hb. destruct b; [reflexivity | inversion Hb]. }
  assert (Inv : forall a, Forall2 doubles (Some c :: map Some cs) (map (fun c => [c] ++ $"min") a) ->
     exists x r, a = x :: r /\ parse_box_child c = Ok (x, $"min") /\ Forall2 doubles (map Some cs) (map (fun c => [c] ++ $"min") r)).
  { intros a Ha. destruct a as [|x r]; [inversion Ha|]. cbn [map] in Ha. inversion Ha as [|? ? ? ? Hd Hr]; subst.
    exists x, r. split; [reflexivity|]. split; [apply box_child_of; [exact Hd | reflexivity] | exact Hr]. }
  destruct (box_child_quiet c Hc) as [[[x m] Ex]|Ex]; rewrite Ex in *; cbn [obind].
  2:{ apply decides_err. intros a Ha. destruct (Inv a Ha) as (? & ? & _ & H & _). discriminate. }
  destruct (same_bytes m $"min") eqn:Em; cbn [negb].
  2:{ apply decides_err. intros a Ha. destruct (Inv a Ha) as (? & ? & _ & [= _ ->] & _). rewrite same_bytes_refl in Em. discriminate. }
  apply same_bytes_eq in Em. subst m.
  destruct (box_child_ok c x _ Hc Ex) as (_ & _ & _ & _ & F & N).
  destruct IH as [[[r Er]|Er] IH]; rewrite Er; cbn [obind].
  - apply decides_ok.
    + cbn [map]. constructor; [exists c; repeat split; assumption | apply IH; exact Er].
    + intros b Hb. destruct (Inv b Hb) as (x' & r' & -> & [= <-] & Hr). apply IH in Hr. congruence.
  - apply decides_err. intros a Ha. destruct (Inv a Ha) as (x' & r' & -> & _ & Hr). apply IH in Hr. congruence.
Qed.
Lemma box_max_decides cs : Forall well_formed cs -> forall dim, length dim = length cs ->
  decides (parse_box_max dim (map Some cs)) (fun _ => Forall2 doubles (map Some cs) (map (fun c => [c] ++ $"max") dim)).
Proof.
  induction 1 as [|c cs Hc Hcs IH]; intros [|d dim] L; try discriminate; cbn [map parse_box_max].
  { apply decides_ok; [constructor | intros []; reflexivity]. }
  assert (Inv : Forall2 doubles (Some c :: map Some cs) (([d] ++ $"max") :: map (fun c => [c] ++ $"max") dim) ->
     parse_box_child c = Ok (d, $"max") /\ Forall2 doubles (map Some cs) (map (fun c => [c] ++ $"max") dim)).
  { intros Ha. inversion Ha as [|? ? ? ? Hd Hr]; subst. split; [apply box_child_of; [exact Hd | reflexivity] | exact Hr]. }
  destruct (box_child_quiet c Hc) as [[[x m] Ex]|Ex]; rewrite Ex in *; cbn [obind].
  2:{ apply decides_err. intros a Ha. destruct (Inv Ha) as (H & _). discriminate. }
  destruct (same_bytes m $"max") eqn:Em; cbn [negb].
  2:{ apply decides_err. intros a Ha. destruct (Inv Ha) as ([= _ ->] & _). rewrite same_bytes_refl in Em. discriminate. }
  apply same_bytes_eq in Em. subst m.
  destruct (N.eqb_spec x d) as [->|Hx]; cbn [negb].
  2:{ apply decides_err. intros a Ha. destruct (Inv Ha) as ([= ->] & _). contradiction. }
  destruct (box_child_ok c d _ Hc Ex) as (_ & _ & _ & _ & F & N).
  destruct (IH dim ltac:(cbn [length] in L; lia)) as [Q D]. split; [exact Q|]. intros a. rewrite D. split.
  - intros H. constructor; [exists c; repeat split; assumption | exact H].
  - intros H. exact (proj2 (Inv H)).
Qed.

Lemma Forall2_app_split {A B} (R : A -> B -> Prop) la lb l : Forall2 R l (la ++ lb) ->
  Forall2 R (firstn (length la) l) la /\ Forall2 R (skipn (length la) l) lb.
Proof.
  intros H. apply Forall2_app_inv_r in H as (l1 & l2 & H1 & H2 & ->). assert (L : length l1 = length la) by (apply (Forall2_length H1) || (eapply Forall2_length; exact H1)).
  rewrite <- L, firstn_app, firstn_all, Nat.sub_diag, skipn_app, skipn_all, Nat.sub_diag. cbn [firstn skipn app].
  rewrite app_nil_r. split; assumption.
Qed.

Lemma box_decides s : well_formed s ->
  decides (parse_box s) (fun x => exists d, x = (dim_code d, CT_SEPARATE) /\ box d s).
Proof.
  intros W. destruct (wf_format s W) as (f & F). destruct (wf_forall s W) as (cs & E & Hc).
  unfold parse_box, format_of, box. rewrite F. cbn [or_ub obind].
  destruct (same_bytes f $"+s") eqn:E1; cbn [negb].
  2:{ apply decides_err. intros a (d & -> & H & _). injection H as ->. rewrite same_bytes_refl in E1. discriminate. }
  apply same_bytes_eq in E1. subst f. unfold n_children. rewrite E.
  destruct ((Z.of_nat (length (map Some cs)) =? 4) || (Z.of_nat (length (map Some cs)) =? 6) || (Z.of_nat (length (map Some cs)) =? 8)) eqn:En;
    cbn [negb].
  2:{ apply decides_err. intros a (d & -> & _ & H). apply Forall2_length in H. rewrite !app_length, !map_length in *.
      assert (length (dim_names d) = 2 \/ length (dim_names d) = 3 \/ length (dim_names d) = 4)%nat as C by (destruct d; vm_compute; lia).
      destruct C as [C|[C|C]]; rewrite C in H; lia. }
  set (n := Z.to_nat (Z.quot (Z.of_nat (length (map Some cs))) 2)).
  assert (Ln : length cs = (2 * n)%nat).
  { subst n. rewrite map_length in *. assert (Z.of_nat (length cs) = 4 \/ Z.of_nat (length cs) = 6 \/ Z.of_nat (length cs) = 8) as C by lia.
    destruct C as [C|[C|C]]; rewrite C; vm_compute Z.quot; lia. }
  rewrite firstn_map, skipn_map.
  assert (H1 : Forall well_formed (firstn n cs)).
  { rewrite <- (firstn_skipn n cs) in Hc. apply Forall_app in Hc. tauto. }
  assert (H2 : Forall well_formed (skipn n cs)).
  { rewrite <- (firstn_skipn n cs) in Hc. apply Forall_app in Hc. tauto. }
  destruct (box_min_decides _ H1) as [Q D].
  assert (Split : forall d, Forall2 doubles (map Some cs) (map (fun c => [c] ++ $"min") (dim_names d) ++ map (fun c => [c] ++ $"max") (dim_names d)) <->
    Forall2 doubles (map Some (firstn n cs)) (map (fun c => [c] ++ $"min") (dim_names d)) /\
    Forall2 doubles (map Some (skipn n cs)) (map (fun c => [c] ++ $"max") (dim_names d))).
  { intros d. split.
    - intros H. assert (L := H). apply Forall2_length in L. rewrite app_length, !map_length in L.
      apply Forall2_app_split in H. rewrite map_length, firstn_map, skipn_map in H.
      replace (length (dim_names d)) with n in H by lia. exact H.
    - intros [Ha Hb]. rewrite <- (firstn_skipn n cs), map_app. apply Forall2_app; assumption. }
  destruct Q as [[names En']|En']; rewrite En'; cbn [obind].
  2:{ apply decides_err. intros a (d & -> & _ & H). apply Split in H as [H _]. apply D in H. congruence. }
  assert (Ln' : length names = n).
  { apply D in En'. apply Forall2_length in En'. rewrite !map_length, firstn_length in En'. lia. }
  destruct (named_dimensions names) as [z|] eqn:Ed.
  - apply named_dimensions_some in Ed as (d & -> & ->).
    destruct (box_max_decides _ H2 (dim_names d)) as [Q2 D2]. { rewrite skipn_length. lia. }
    destruct Q2 as [[[] E2]|E2]; rewrite E2; cbn [obind].
    + apply decides_ok.
      * exists d. split; [reflexivity|]. split; [reflexivity|]. apply Split. split; [apply D; exact En' | apply (D2 tt); exact E2].
      * intros b (d' & -> & _ & H). apply Split in H as [H _]. apply D in H. rewrite En' in H. injection H as H.
        apply dim_names_inj in H. subst. reflexivity.
    + apply decides_err. intros a (d' & -> & _ & H). apply Split in H as [H H']. apply D in H. rewrite En' in H. injection H as H.
      apply dim_names_inj in H. subst d'. apply (D2 tt) in H'. congruence.
  - apply decides_err. intros a (d' & -> & _ & H). apply Split in H as [H H']. apply D in H. rewrite En' in H. injection H as ->.
    rewrite named_dimensions_of in Ed. discriminate.
Qed.
