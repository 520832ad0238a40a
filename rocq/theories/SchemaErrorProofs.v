(** * Proofs about the messages of GeoArrowSchemaViewInit *)
From Verif Require Import Base BaseFacts Text BufferModel TypesModel TypesSpec MetadataModel MetadataProofs SchemaModel SchemaSpec SchemaMetadata SchemaProofs SchemaRecognised SchemaViews
  WktErrorModel WktErrorSpec WktErrorMessages MetadataErrorModel MetadataErrorSpec SchemaErrorModel SchemaErrorSpec.
Local Open Scope Z_scope.

(** ** The functions are those of SchemaModel.v *)
Definition erase {A} (v : verdict A) : outcome A :=
  match v with Accept a => Ok a | Reject _ => Err EINVAL | Foreign c => Err c | Broken => UB end.
Lemma erase_next {A B} (m : verdict A) (k : A -> verdict B) : erase (next m k) = (do a <- erase m; erase (k a)).
Proof. destruct m; reflexivity. Qed.
Lemma erase_asked {A} (o : outcome A) : o <> NoFuel -> erase (asked o) = o.
Proof. destruct o; try reflexivity. contradiction. Qed.
Lemma erase_child s i : erase (asked (child s i)) = child s i.
Proof. apply erase_asked. unfold child. destruct (nth_error _ _) as [[|]|]; discriminate. Qed.
Lemma erase_or_ub {A} (o : option A) : erase (asked (or_ub o)) = or_ub o.
Proof. destruct o; reflexivity. Qed.
Lemma erase_format s : erase (asked (format_of s)) = format_of s.
Proof. apply erase_or_ub. Qed.
Lemma obind_same {A B} (o : outcome A) (f g : A -> outcome B) : (forall a, f a = g a) -> (do a <- o; f a) = (do a <- o; g a).
Proof. intros H. destruct o; cbn [obind]; auto. Qed.

Lemma erase_view s : well_formed s -> erase (asked (arrow_view_init s)) = arrow_view_init s.
Proof.
  intros W. destruct (wf_holds s W) as (es & H). destruct (arrow_view_cases s W es H) as [->|(v & -> & _)]; reflexivity.
Qed.
Lemma erase_if {A} (b : bool) (x y : verdict A) : erase (if b then x else y) = if b then erase x else erase y.
Proof. destruct b; reflexivity. Qed.

Lemma erase_list name s : well_formed s -> erase (e_fixed_size_list name s) = parse_point_fixed_size_list s.
Proof.
  intros W. unfold e_fixed_size_list, parse_point_fixed_size_list. cbv zeta. rewrite erase_if. destruct (negb _); [reflexivity|].
  rewrite erase_next, erase_child. apply obind_same. intros c. rewrite erase_next, erase_format. apply obind_same. intros f.
  rewrite erase_if. destruct (negb _); [reflexivity|]. rewrite erase_next, erase_view by exact W. apply obind_same. intros v.
  destruct (match named_dimensions _ with Some d => Some d | None => _ end); [|reflexivity].
  rewrite erase_next, erase_or_ub. apply obind_same. intros e. rewrite erase_if. destruct (negb _); reflexivity.
Qed.
Lemma erase_names name cs : forall i, erase (e_child_names name i cs) = coord_child_names cs.
Proof.
  induction cs as [|[c|] cs IH]; intros i; cbn [e_child_names coord_child_names]; try reflexivity.
  destruct (sc_name c) as [[|x [|]]|]; try reflexivity. rewrite erase_next, erase_format. apply obind_same. intros f.
  rewrite erase_if. destruct (negb _); [reflexivity|]. rewrite erase_next, IH. apply obind_same. reflexivity.
Qed.
Lemma erase_struct name s : erase (e_struct name s) = parse_point_struct s.
Proof.
  unfold e_struct, parse_point_struct. rewrite erase_if. destruct (_ || _); [reflexivity|]. rewrite erase_next, erase_names.
  apply obind_same. intros d. destruct (named_dimensions d); reflexivity.
Qed.
Lemma erase_nested name n : forall s, well_formed s -> erase (e_nested name n s) = parse_nested_schema n s.
Proof.
  induction n as [|n IH]; intros s W; cbn [e_nested parse_nested_schema]; rewrite erase_next, erase_format; apply obind_same; intros f.
  - rewrite !erase_if, erase_struct, erase_list by exact W. reflexivity.
  - rewrite erase_if. destruct (_ || _); [reflexivity|]. rewrite erase_next, erase_child.
    destruct (child s 0) as [c| | |] eqn:E; try reflexivity. cbn [obind]. apply IH.
    unfold child in E. destruct (nth_error _ _) as [[d|]|] eqn:En; try discriminate. injection E as ->.
    destruct (wf_nth s 0 _ W En) as (x & [= ->] & Wx). exact Wx.
Qed.
Lemma erase_box_child i s : erase (e_box_child i s) = parse_box_child s.
Proof.
  unfold e_box_child, parse_box_child. destruct (sc_name s) as [[|a [|b [|c [|d [|]]]]]|]; try reflexivity.
  rewrite erase_next, erase_format. apply obind_same. intros f. rewrite erase_if. reflexivity.
Qed.
Lemma erase_box_min cs : forall i, erase (e_box_min i cs) = parse_box_min cs.
Proof.
  induction cs as [|[c|] cs IH]; intros i; cbn [e_box_min parse_box_min]; try reflexivity.
  rewrite erase_next, erase_box_child. apply obind_same. intros [x m]. rewrite erase_if. destruct (negb _); [reflexivity|].
  rewrite erase_next, IH. apply obind_same. reflexivity.
Qed.
Lemma erase_box_max n dim : forall i mins maxs, length mins = length dim -> Forall (fun m => m <> None) mins ->
  erase (e_box_max n i dim mins maxs) = parse_box_max dim maxs.
Proof.
  induction dim as [|d dim IH]; intros i mins maxs L H; cbn [e_box_max parse_box_max]; [reflexivity|].
  destruct mins as [|[m|] mins]; [discriminate | |inversion H; congruence].
  destruct maxs as [|[c|] maxs]; try reflexivity.
  rewrite erase_next, erase_box_child. apply obind_same. intros [x m']. rewrite !erase_if. destruct (negb _); [reflexivity|].
  destruct (negb _); [reflexivity|]. apply IH; [cbn [length] in L; lia | inversion H; assumption].
Qed.

(** ** What is said *)
Definition settled {A} (v : verdict A) (said : bytes -> Prop) : Prop :=
  match v with Accept _ => True | Reject t => said t | _ => False end.
Lemma settled_next {A B} (m : verdict A) (k : A -> verdict B) said :
  settled m said -> (forall a, m = Accept a -> settled (k a) said) -> settled (next m k) said.
Proof. destruct m; cbn; auto. Qed.

Lemma print_int_ok z : 0 <= z < 2147483648 -> decimal_of (Z.to_N z) (print_int z).
Proof.
  intros H. unfold print_int. rewrite (to_int32_short z H). cbv zeta.
  replace (z <? 0) with false by lia. exact (proj1 (print_ld_ok (Z.to_N z))).
Qed.
Lemma print_nat_ok n : Z.of_nat n < 2147483648 -> number n (print_int (Z.of_nat n)).
Proof. intros H. unfold number. replace (N.of_nat n) with (Z.to_N (Z.of_nat n)) by lia. apply print_int_ok. lia. Qed.

Lemma within_more n : forall s c d, within n s c -> sc_format c = Some $"+l" -> sc_children c = [Some d] -> within (S n) s d.
Proof.
  induction n as [|n IH]; intros s c d H F E.
  - cbn [within] in H. subst c. exists d. repeat split; assumption.
  - destruct H as (x & Fx & Ex & H). exists x. split; [exact Fx|]. split; [exact Ex|]. exact (IH x c d H F E).
Qed.

Section Nested.
  Variables (s0 : schema) (name : bytes) (n0 : nat).
  Hypothesis nested : nested_name name n0.

  Lemma levels_small : (n0 <= 3)%nat.
  Proof. destruct nested as (k & _ & _ & ->). destruct k; cbn; lia. Qed.

  Lemma names_settled c : within n0 s0 c -> sc_format c = Some $"+s" -> well_formed c -> forall cs i, (Z.of_nat i + Z.of_nat (length cs) < 2147483648) ->
    (forall j, nth_error cs j = nth_error (sc_children c) (i + j)) ->
    settled (e_child_names name (Z.of_nat i) cs) (schema_complaint s0 (Some name)).
  Proof.
    intros Hin F W. induction cs as [|x cs IH]; intros i L H; cbn [e_child_names]; [exact I|].
    pose proof (H 0%nat) as H0. cbn [nth_error] in H0. rewrite Nat.add_0_r in H0. symmetry in H0.
    destruct (wf_nth c i _ W H0) as (y & -> & Wy). cbn [length] in L.
    assert (NM : (forall a, sc_name y <> Some [a]) ->
      settled (Reject (A := bytes) ($"Expected coordinate child " ++ print_int (Z.of_nat i) ++ $" to have single character name" ++ for_extension name)) (schema_complaint s0 (Some name))).
    { intros Hn. cbn [settled]. apply (struct_child_name s0 name n0 c i y (print_int (Z.of_nat i))); try assumption. apply print_nat_ok. lia. }
    destruct (sc_name y) as [[|a [|b r]]|] eqn:En; try (apply NM; intros q; discriminate).
    destruct (wf_format y Wy) as (f & Fy). unfold format_of. rewrite Fy. cbn [or_ub asked next].
    destruct (same_bytes f $"g") eqn:Eg; cbn [negb].
    - apply settled_next; [|intros; exact I]. replace (Z.of_nat i + 1) with (Z.of_nat (S i)) by lia. apply IH; [lia|].
      intros j. specialize (H (S j)). cbn [nth_error] in H. rewrite H. f_equal. lia.
    - apply (struct_child_type s0 name n0 c i y (print_int (Z.of_nat i))); try assumption; [|apply print_nat_ok; lia].
      apply same_bytes_false in Eg. congruence.
  Qed.
  Lemma names_found cs : forall i r, e_child_names name i cs = Accept r ->
    Forall2 (fun x a => exists y, x = Some y /\ sc_name y = Some [a]) cs r.
  Proof.
    induction cs as [|[y|] cs IH]; intros i r; cbn [e_child_names]; [intros [= <-]; constructor| |discriminate].
    destruct (sc_name y) as [[|a [|b q]]|] eqn:En; try discriminate.
    destruct (asked (format_of y)); cbn [next]; try discriminate. destruct (negb _); [discriminate|].
    destruct (e_child_names name (i + 1) cs) as [r'| | |] eqn:E; cbn [next]; try discriminate. intros [= <-].
    constructor; [eauto | exact (IH _ _ E)].
  Qed.
  Lemma not_named t : named_dimensions t = None -> ~ is_dims t.
  Proof. intros H (d & ->). exact (named_dimensions_none _ H d eq_refl). Qed.

  Lemma struct_settled c : within n0 s0 c -> sc_format c = Some $"+s" -> well_formed c -> short (sc_children c) ->
    settled (e_struct name c) (schema_complaint s0 (Some name)).
  Proof.
    intros Hin F W S. unfold e_struct, n_children. unfold short in S.
    destruct ((_ <? 2) || (4 <? _)) eqn:En.
    - apply (struct_size s0 name n0 c (print_int (Z.of_nat (length (sc_children c))))); try assumption; [lia|]. apply print_nat_ok. lia.
    - apply settled_next; [apply (names_settled c Hin F W (sc_children c) 0); [lia | reflexivity]|].
      intros dim E. destruct (named_dimensions dim) eqn:Ed; [exact I|].
      exact (struct_dims s0 name n0 c dim nested Hin F (names_found _ _ _ E) (not_named dim Ed)).
  Qed.

  Lemma list_settled c t : within n0 s0 c -> sc_format c = Some ($"+w:" ++ t) -> well_formed c -> length (sc_children c) = 1%nat ->
    settled (e_fixed_size_list name c) (schema_complaint s0 (Some name)).
  Proof.
    intros Hin F W L.
    destruct (wf_forall c W) as (cs & E & Hc).
    assert (Ht : numeral t /\ numeral_value t < 2147483648).
    { destruct W. cbn [sc_format] in F. injection F as ->. auto. }
    destruct Ht as [Hn Hv].
    assert (exists x, cs = [x]) as (x & ->). { rewrite E, map_length in L. destruct cs as [|x [|]]; cbn [length] in L; try lia. eauto. }
    cbn [map] in E. inversion Hc as [|? ? Wx _]; subst.
    assert (At : child_at c 0 x) by (unfold child_at; rewrite E; reflexivity).
    unfold e_fixed_size_list. cbv zeta. unfold n_children, child. rewrite E. cbn [length Z.of_nat Z.eqb Pos.of_succ_nat Pos.eqb negb nth_error asked next].
    destruct (wf_format x Wx) as (fx & Fx). unfold format_of. rewrite Fx. cbn [or_ub asked next].
    destruct (same_bytes fx $"g") eqn:Eg; cbn [negb].
    2:{ apply (list_child_type s0 name n0 c t x); try assumption. apply same_bytes_false in Eg. congruence. }
    apply same_bytes_eq in Eg. subst fx.
    destruct (arrow_view_ok c ($"+w:" ++ t) TFixedSizeList (numeral_value t) W F) as (v & -> & _ & Ez).
    { discriminate. }
    { vm_compute. intros HH. repeat (destruct HH as [HH|HH]; [discriminate|]). exact HH. }
    { intros HH. apply (f_equal (@length N)) in HH. rewrite app_length in HH. vm_compute in HH. discriminate. }
    { apply parse_size_format; assumption. }
    { right. left. split; [right; reflexivity | unfold n_children; rewrite E; reflexivity]. }
    cbn [asked next]. rewrite Ez.
    assert (P : 0 <= numeral_value t) by (destruct Hn as (_ & Hd & _); apply (numeral_nonneg t Hd 0); lia).
    destruct (named_dimensions (match sc_name x with Some n => n | None => $"<NULL>" end)) as [z|] eqn:Ed.
    - apply named_dimensions_some in Ed as (d & Ed & ->).
      assert (Nm : sc_name x = Some (dim_names d)).
      { destruct (sc_name x) as [nm|]; [congruence|]. exfalso. destruct d; vm_compute in Ed; discriminate. }
      rewrite num_dimensions_of. cbn [or_ub asked next].
      destruct (Z.eqb_spec (Z.of_nat (length (dim_names d))) (numeral_value t)) as [Es|Es]; cbn [negb]; [exact I|].
      rewrite Nm. apply (list_size s0 name n0 c t x d (print_int (Z.of_nat (length (dim_names d)))) (print_int (numeral_value t))); try assumption.
      + congruence.
      + apply print_nat_ok. destruct d; reflexivity.
      + apply print_int_ok. lia.
    - destruct (Z.eqb_spec (numeral_value t) 2) as [E2|E2]; [rewrite E2; exact I|].
      destruct (Z.eqb_spec (numeral_value t) 3) as [E3|E3]; [rewrite E3; exact I|].
      destruct (Z.eqb_spec (numeral_value t) 4) as [E4|E4]; [rewrite E4; exact I|].
      apply (list_dims s0 name n0 c t x (print_int (numeral_value t))); try assumption.
      + exact (not_named _ Ed).
      + intros [H|[H|[H|[]]]]; congruence.
      + apply print_int_ok. lia.
  Qed.

  Hypothesis few : forall n c, within n s0 c -> short (sc_children c).
  Hypothesis single : forall n c t, within n s0 c -> sc_format c = Some ($"+w:" ++ t) -> length (sc_children c) = 1%nat.

  Lemma nested_settled m : forall k c, (k + m = n0)%nat -> within k s0 c -> well_formed c ->
    settled (e_nested name m c) (schema_complaint s0 (Some name)).
  Proof.
    pose proof levels_small as LS.
    induction m as [|m IH]; intros k c Hk Hin W; cbn [e_nested]; destruct (wf_format c W) as (f & F); unfold format_of; rewrite F; cbn [or_ub asked next].
    - replace k with n0 in Hin by lia.
      destruct (same_bytes f $"+s") eqn:E1.
      { apply same_bytes_eq in E1. subst f. apply struct_settled; try assumption. exact (few _ _ Hin). }
      destruct (same_bytes (firstn 3 f) $"+w:") eqn:E2.
      { apply firstn3 in E2. rewrite E2 in F. apply (list_settled c (skipn 3 f)); try assumption. exact (single _ _ _ Hin F). }
      apply (not_coordinates s0 name n0 c); try assumption.
      + rewrite F. apply same_bytes_false in E1. congruence.
      + intros t H. rewrite F in H. injection H as ->. vm_compute in E2. discriminate.
    - destruct (same_bytes f $"+l") eqn:El; cbn [negb orb].
      + apply same_bytes_eq in El. subst f.
        destruct (Z.eqb_spec (n_children c) 1) as [E1|E1]; cbn [negb].
        * destruct (wf_forall c W) as (cs & E & Hc). unfold n_children in E1. rewrite E, map_length in E1.
          destruct cs as [|x [|]]; cbn [length] in E1; try lia. cbn [map] in E. inversion Hc as [|? ? Wx _]; subst.
          unfold child. rewrite E. cbn [nth_error asked next]. apply (IH (S k)); [lia | exact (within_more k s0 c x Hin F E) | exact Wx].
        * replace (Z.of_nat (S m)) with (Z.of_nat (n0 - k)) by lia.
          apply (not_a_list s0 name n0 k c (print_int (Z.of_nat (n0 - k)))); try assumption; [lia| |apply print_nat_ok; lia].
          intros [_ H]. unfold n_children in E1. lia.
      + replace (Z.of_nat (S m)) with (Z.of_nat (n0 - k)) by lia.
        apply (not_a_list s0 name n0 k c (print_int (Z.of_nat (n0 - k)))); try assumption; [lia| |apply print_nat_ok; lia].
        intros [H _]. rewrite F in H. injection H as ->. rewrite same_bytes_refl in El. discriminate.
  Qed.
End Nested.

(** ** Boxes *)
Lemma suffix_missing a b c d t : length t = 3%nat -> same_bytes [b; c; d] t = false -> forall p, [a; b; c; d] <> p ++ t.
Proof.
  intros L H p E. apply same_bytes_false in H. apply H.
  destruct p as [|x [|y p]].
  - cbn [app] in E. subst t. discriminate.
  - cbn [app] in E. injection E as _ E. exact E.
  - apply (f_equal (@length N)) in E. cbn [app length] in E. rewrite app_length in E. lia.
Qed.

Section Boxes.
  Variables (s : schema) (k : nat).
  Hypothesis W : well_formed s.
  Hypothesis half : (2 * k = length (sc_children s))%nat.
  Hypothesis small : (k <= 4)%nat.
  Let said (t : bytes) : Prop := schema_complaint s (Some $"geoarrow.box") t \/ misnumbered s t.

  Lemma child_settled j c : (j <= 8)%nat -> child_at s j c -> settled (e_box_child (Z.of_nat j) c) said.
  Proof.
    intros J At. destruct (wf_nth s j _ W At) as (y & [= <-] & Wy). unfold e_box_child.
    assert (NM : (forall n, sc_name c = Some n -> length n <> 4%nat) ->
      settled (Reject (A := N * bytes) ($"Expected box child " ++ print_int (Z.of_nat j) ++ $" to have exactly four characters")) said).
    { intros H. left. apply (box_child_name s j c (print_int (Z.of_nat j))); try assumption. apply print_nat_ok. lia. }
    destruct (sc_name c) as [[|a [|b [|d [|e [|g r]]]]]|] eqn:En;
      try (apply NM; intros n0 Hn0; try (injection Hn0 as <-); try discriminate Hn0; cbn [length]; lia).
    destruct (wf_format c Wy) as (f & F). unfold format_of. rewrite F. cbn [or_ub asked next].
    destruct (same_bytes f $"g") eqn:Eg; cbn [negb]; [exact I|]. left.
    apply (box_child_type s j c (print_int (Z.of_nat j))); try assumption; [|apply print_nat_ok; lia].
    apply same_bytes_false in Eg. congruence.
  Qed.
  Lemma child_found i c x m : e_box_child i c = Accept (x, m) -> exists y z w, m = [y; z; w] /\ sc_name c = Some [x; y; z; w].
  Proof.
    unfold e_box_child. destruct (sc_name c) as [[|a [|b [|d [|e [|]]]]]|]; try discriminate.
    destruct (asked (format_of c)); cbn [next]; try discriminate. destruct (negb _); [discriminate|]. intros [= <- <-]. eauto 6.
  Qed.

  Lemma min_settled cs : forall j, (j + length cs <= k)%nat -> (forall l x, nth_error cs l = Some x -> nth_error (sc_children s) (j + l) = Some x) ->
    settled (e_box_min (Z.of_nat j) cs) said.
  Proof.
    induction cs as [|x cs IH]; intros j L H; cbn [e_box_min]; [exact I|]. cbn [length] in L.
    pose proof (H 0%nat x eq_refl) as H0. rewrite Nat.add_0_r in H0. destruct (wf_nth s j _ W H0) as (c & -> & _).
    apply settled_next; [apply child_settled; [lia | exact H0]|]. intros [x m] E. apply child_found in E as (y & z & w & -> & En).
    destruct (same_bytes [y; z; w] $"min") eqn:Em; cbn [negb].
    - apply settled_next; [|intros; exact I]. replace (Z.of_nat j + 1) with (Z.of_nat (S j)) by lia. apply IH; [lia|].
      intros l u Hl. specialize (H (S l) u Hl). rewrite <- H. f_equal. lia.
    - left. unfold name_of_child. rewrite En.
      apply (box_child_suffix s $"min" j c [x; y; z; w] (print_int (Z.of_nat j))); try assumption.
      + replace (2 * j <? length (sc_children s))%nat with true by (symmetry; apply Nat.ltb_lt; lia). reflexivity.
      + apply suffix_missing; [reflexivity | exact Em].
      + apply print_nat_ok. lia.
  Qed.
  Lemma min_found cs : forall i r, e_box_min i cs = Accept r ->
    Forall2 (fun x a => exists y, x = Some y /\ sc_name y = Some ([a] ++ $"min")) cs r.
  Proof.
    induction cs as [|[c|] cs IH]; intros i r; cbn [e_box_min]; [intros [= <-]; constructor| |discriminate].
    destruct (e_box_child i c) as [[x m]| | |] eqn:E; cbn [next]; try discriminate. apply child_found in E as (y & z & w & -> & En).
    destruct (same_bytes [y; z; w] $"min") eqn:Em; cbn [negb]; [|discriminate]. apply same_bytes_eq in Em.
    destruct (e_box_min (i + 1) cs) as [r'| | |] eqn:E; cbn [next]; try discriminate. intros [= <-].
    constructor; [|exact (IH _ _ E)]. exists c. split; [reflexivity|]. rewrite En. f_equal. change (x :: [y; z; w] = [x] ++ $"min"). rewrite Em. reflexivity.
  Qed.

  Lemma max_settled dim : forall j mins maxs, (j + length dim = k)%nat -> length mins = length dim -> length maxs = length dim ->
    Forall2 (fun x a => exists y, x = Some y /\ sc_name y = Some ([a] ++ $"min")) mins dim ->
    (forall l x, nth_error mins l = Some x -> nth_error (sc_children s) (j + l) = Some x) ->
    (forall l x, nth_error maxs l = Some x -> nth_error (sc_children s) (k + (j + l)) = Some x) ->
    settled (e_box_max (Z.of_nat k) (Z.of_nat j) dim mins maxs) said.
  Proof.
    induction dim as [|d dim IH]; intros j mins maxs L L1 L2 H Hmin Hmax; cbn [e_box_max]; [exact I|].
    destruct mins as [|m mins]; [discriminate|]. destruct maxs as [|x maxs]; [discriminate|]. cbn [length] in L, L1, L2.
    assert (Hc : (exists y, m = Some y /\ sc_name y = Some ([d] ++ $"min")) /\
      Forall2 (fun x a => exists y, x = Some y /\ sc_name y = Some ([a] ++ $"min")) mins dim) by (inversion H; auto).
    destruct Hc as [(m' & -> & Nm) Hrest].
    pose proof (Hmin 0%nat _ eq_refl) as Am. rewrite Nat.add_0_r in Am.
    pose proof (Hmax 0%nat _ eq_refl) as Ax. rewrite Nat.add_0_r in Ax.
    destruct (wf_nth s _ _ W Ax) as (c & -> & _).
    replace (Z.of_nat k + Z.of_nat j) with (Z.of_nat (k + j)) by lia.
    apply settled_next; [apply child_settled; [lia | exact Ax]|]. intros [x mx] E. apply child_found in E as (y & z & w & -> & En).
    destruct (same_bytes [y; z; w] $"max") eqn:Em; cbn [negb].
    2:{ left. unfold name_of_child. rewrite En.
        apply (box_child_suffix s $"max" (k + j) c [x; y; z; w] (print_int (Z.of_nat (k + j)))); try assumption.
        - replace (2 * (k + j) <? length (sc_children s))%nat with false by (symmetry; apply Nat.ltb_ge; lia). reflexivity.
        - apply suffix_missing; [reflexivity | exact Em].
        - apply print_nat_ok. lia. }
    apply same_bytes_eq in Em.
    destruct (N.eqb_spec x d) as [->|Nd]; cbn [negb].
    - replace (Z.of_nat j + 1) with (Z.of_nat (S j)) by lia. apply IH; try assumption; try lia.
      + intros l u Hl. rewrite <- (Hmin (S l) u Hl). f_equal. lia.
      + intros l u Hl. rewrite <- (Hmax (S l) u Hl). f_equal. lia.
    - right. unfold name_of_child. rewrite En, Nm.
      assert (Nx : sc_name c = Some ([x] ++ $"max")) by (rewrite En; f_equal; change (x :: [y; z; w] = [x] ++ $"max"); rewrite Em; reflexivity).
      assert (T : [x; y; z; w] = [x] ++ $"max") by congruence. rewrite T.
      apply (Misnumbered s j c m' k d x (print_int (Z.of_nat j)));
        [exact Ax | exact Nx | exact Am | exact Nm | congruence | lia | lia | apply print_nat_ok; lia].
  Qed.
End Boxes.

Lemma nth_firstn_some {A} (l : list A) n i x : nth_error (firstn n l) i = Some x -> nth_error l i = Some x.
Proof.
  revert n i. induction l as [|a l IH]; intros [|n] [|i]; cbn; try discriminate; auto. apply IH.
Qed.
Lemma nth_skipn_some {A} (l : list A) n i : nth_error (skipn n l) i = nth_error l (n + i).
Proof. revert l. induction n as [|n IH]; intros [|a l]; cbn; auto. destruct i; reflexivity. Qed.

Lemma box_settled s : well_formed s -> short (sc_children s) ->
  settled (e_box s) (fun t => schema_complaint s (Some $"geoarrow.box") t \/ misnumbered s t).
Proof.
  intros W S. unfold short in S. unfold e_box. destruct (wf_format s W) as (f & F). unfold format_of. rewrite F. cbn [or_ub asked next].
  destruct (same_bytes f $"+s") eqn:E1; cbn [negb].
  2:{ left. apply box_storage. apply same_bytes_false in E1. congruence. }
  unfold n_children.
  destruct (negb _) eqn:En.
  { left. apply (box_size s (print_int (Z.of_nat (length (sc_children s))))); [|apply print_nat_ok; lia].
    intros [H|[H|[H|[]]]]; rewrite <- H in En; discriminate. }
  assert (exists k, (2 * k = length (sc_children s))%nat /\ (2 <= k <= 4)%nat) as (k & Hk & Sk).
  { apply negb_false_iff in En. apply orb_prop in En as [En|En]; [apply orb_prop in En as [En|En]|]; apply Z.eqb_eq in En;
      [exists 2%nat | exists 3%nat | exists 4%nat]; lia. }
  assert (Q : Z.quot (Z.of_nat (length (sc_children s))) 2 = Z.of_nat k).
  { rewrite <- Hk. replace (Z.of_nat (2 * k)) with (Z.of_nat k * 2) by lia. apply Z.quot_mul. lia. }
  rewrite Q. cbv zeta. rewrite Nat2Z.id.
  assert (L1 : length (firstn k (sc_children s)) = k) by (rewrite firstn_length; lia).
  apply settled_next.
  - apply (min_settled s k W Hk ltac:(lia) _ 0%nat); [lia|]. intros l x. apply nth_firstn_some.
  - intros dim E. pose proof (min_found s _ _ _ E) as Hf || pose proof (min_found _ _ _ E) as Hf.
    assert (Ld : length (firstn k (sc_children s)) = length dim) by (eapply Forall2_length; exact Hf). destruct (named_dimensions dim) eqn:Ed.
    + apply settled_next; [|intros; exact I].
      apply (max_settled s k W Hk ltac:(lia) dim 0%nat); try lia.
      * rewrite skipn_length. lia.
      * exact Hf.
      * intros l x. apply nth_firstn_some.
      * intros l x. rewrite nth_skipn_some. cbn [Nat.add]. auto.
    + left. apply box_dims.
      * exact (not_named dim Ed).
      * lia.
      * rewrite L1 in Ld. rewrite <- Ld. exact Hf.
Qed.

Lemma erase_box s : well_formed s -> erase (e_box s) = parse_box s.
Proof.
  intros W. unfold e_box, parse_box. rewrite erase_next, erase_format. apply obind_same. intros f. rewrite erase_if. destruct (negb _); [reflexivity|].
  rewrite erase_if. destruct (negb _); [reflexivity|]. cbv zeta. rewrite erase_next, erase_box_min.
  destruct (parse_box_min _) as [dim| | |] eqn:E; try reflexivity. cbn [obind].
  destruct (named_dimensions dim); [|reflexivity]. rewrite erase_next.
  pose proof (erase_box_min (firstn (Z.to_nat (Z.quot (n_children s) 2)) (sc_children s)) 0) as Em. rewrite E in Em.
  destruct (e_box_min 0 _) as [dim'| | |] eqn:E'; try discriminate. cbn [erase] in Em. injection Em as ->.
  pose proof (min_found _ _ _ E') as Hf.
  rewrite erase_box_max; [|eapply Forall2_length; exact Hf|].
  - destruct (parse_box_max _ _); reflexivity.
  - clear -Hf. induction Hf as [|x a l r (y & -> & _) _ IH]; constructor; [discriminate | exact IH].
Qed.

(** ** All types *)
Lemma view_no_dictionary s f : well_formed s -> sc_format s = Some f -> ~ In f [$"c"; $"C"; $"s"; $"S"; $"i"; $"I"; $"l"; $"L"] -> sc_dictionary s = None.
Proof.
  intros W F Hi. destruct W as [f' name md flags cs dict es0 Hw Hd Hfl Ho Hm Hh Hc Hdd]. cbn [sc_format sc_dictionary] in *. injection F as ->.
  destruct dict; [|reflexivity]. exfalso. apply Hi, Hd. discriminate.
Qed.
Lemma serial_type s v f t : well_formed s -> view_behind s v -> sc_format s = Some f ->
  ~ In f [$"c"; $"C"; $"s"; $"S"; $"i"; $"I"; $"l"; $"L"] ->
  (forall n, parse_format f n = Some (Parsed t t 0 [])) -> av_type v = t.
Proof.
  intros W (f' & p & F' & P & _ & T & _) F Hi Hp. rewrite F in F'. injection F' as <-. rewrite Hp in P. injection P as <-.
  rewrite T. unfold view_type. rewrite (view_no_dictionary s f W F Hi). reflexivity.
Qed.
Ltac serial := match goal with
  | W : well_formed ?s, B : view_behind ?s ?v, F : sc_format ?s = Some ?f |- av_type ?v = ?t =>
      apply (serial_type s v f t W B F); [vm_compute; intros HH; repeat (destruct HH as [HH|HH]; [discriminate|]); exact HH | reflexivity]
  end.
Lemma strings_type s v : well_formed s -> view_behind s v -> (exists f, In f [$"u"; $"U"; $"vu"] /\ sc_format s = Some f) ->
  av_type v = TString \/ av_type v = TLargeString \/ av_type v = TStringView.
Proof.
  intros W B (f & [<-|[<-|[<-|[]]]] & F); [left; serial | right; left; serial | right; right; serial].
Qed.
Lemma binary_type s v : well_formed s -> view_behind s v -> (exists f, In f [$"z"; $"Z"; $"vz"] /\ sc_format s = Some f) ->
  av_type v = TBinary \/ av_type v = TLargeBinary \/ av_type v = TBinaryView.
Proof.
  intros W B (f & [<-|[<-|[<-|[]]]] & F); [left; serial | right; left; serial | right; right; serial].
Qed.

Lemma up_to_nul_ok t : before_nul t (up_to_nul t).
Proof.
  induction t as [|c t [H1 H2]]; cbn [up_to_nul]; [split; [intros [] | left; reflexivity]|].
  destruct (N.eqb_spec c 0) as [->|Hc].
  - split; [intros []|]. right. exists t. reflexivity.
  - split; [intros [H|H]; [congruence | exact (H1 H)]|]. destruct H2 as [H2|(r & H2)].
    + left. f_equal. exact H2.
    + right. exists r. cbn [app]. f_equal. exact H2.
Qed.

Lemma erase_named name b : erase (asked (named name b)) = named name b.
Proof. unfold named. destruct (_ =? _); [|reflexivity]. destruct (slice _ _ _); reflexivity. Qed.
Lemma erase_prefix name b : erase (asked (named_prefix name b)) = named_prefix name b.
Proof. unfold named_prefix. destruct (_ <=? _); [|reflexivity]. destruct (slice _ _ _); reflexivity. Qed.
Lemma erase_native g v name p : erase (e_native g v name p) = native_view g v name (erase p).
Proof. unfold e_native, native_view. rewrite erase_next. apply obind_same. intros [d c]. reflexivity. Qed.

Lemma erase_internal s v name b : well_formed s -> views name b -> erase (e_internal s v name) = view_init_internal s v name.
Proof.
  intros W Hn. unfold e_internal, view_init_internal.
  repeat (rewrite erase_next, ?erase_named, ?erase_prefix; apply obind_same; intros []; [rewrite ?erase_native, ?erase_box, ?erase_nested by exact W; try reflexivity; destruct (av_type v); reflexivity|]).
  unfold e_unrecognized. rewrite (proj1 Hn). reflexivity.
Qed.

Lemma internal_settled s v name b : well_formed s -> view_behind s v -> views name b ->
  (forall n c, within n s c -> short (sc_children c)) ->
  (forall n c t, within n s c -> sc_format c = Some ($"+w:" ++ t) -> length (sc_children c) = 1%nat) ->
  settled (e_internal s v name) (fun t => schema_complaint s (Some b) t \/ (b = $"geoarrow.box" /\ misnumbered s t)).
Proof.
  intros W B Hn few single. unfold e_internal. rewrite !(named_spec _ _ _ Hn), (named_prefix_spec _ _ _ Hn).
  assert (NV : forall k, k <> KBox -> forall g, b = type_name (Native k XY Separate) ->
    settled (e_native g v name (e_nested b (levels k) s)) (fun t => schema_complaint s (Some b) t \/ (b = $"geoarrow.box" /\ misnumbered s t))).
  { intros k Hk g Hb. apply settled_next; [|intros [d c] _; exact I].
    assert (NN : nested_name b (levels k)) by (exists k; auto).
    pose proof (nested_settled s b (levels k) NN few single (levels k) 0%nat s eq_refl eq_refl W) as S.
    destruct (e_nested b (levels k) s); cbn [settled] in *; auto. }
  cbn [asked next].
  destruct (same_text b $"geoarrow.box") eqn:E1.
  { apply same_text_eq in E1. apply settled_next; [|intros [d c] _; exact I].
    pose proof (box_settled s W (few 0%nat s eq_refl)) as S. destruct (e_box s); cbn [settled] in *; auto. rewrite E1. destruct S; auto. }
  destruct (same_text b $"geoarrow.point") eqn:E2; [apply same_text_eq in E2; rewrite <- E2; apply (NV KPoint); [discriminate | exact E2]|].
  destruct (same_text b $"geoarrow.linestring") eqn:E3; [apply same_text_eq in E3; rewrite <- E3; apply (NV KLinestring); [discriminate | exact E3]|].
  destruct (same_text b $"geoarrow.polygon") eqn:E4; [apply same_text_eq in E4; rewrite <- E4; apply (NV KPolygon); [discriminate | exact E4]|].
  destruct (same_text b $"geoarrow.multipoint") eqn:E5; [apply same_text_eq in E5; rewrite <- E5; apply (NV KMultipoint); [discriminate | exact E5]|].
  destruct (same_text b $"geoarrow.multilinestring") eqn:E6; [apply same_text_eq in E6; rewrite <- E6; apply (NV KMultilinestring); [discriminate | exact E6]|].
  destruct (same_text b $"geoarrow.multipolygon") eqn:E7; [apply same_text_eq in E7; rewrite <- E7; apply (NV KMultipolygon); [discriminate | exact E7]|].
  destruct (same_text b $"geoarrow.wkt") eqn:E8.
  { apply same_text_eq in E8. rewrite E8.
    assert (R : av_type v <> TString -> av_type v <> TLargeString -> av_type v <> TStringView ->
      schema_complaint s (Some $"geoarrow.wkt") $"Expected storage type of string or large_string for extension 'geoarrow.wkt'").
    { intros H1 H2 H3. apply not_strings. intros f Hf F. destruct (strings_type s v W B (ex_intro _ f (conj Hf F))) as [H|[H|H]]; contradiction. }
    destruct (av_type v); try exact I; left; apply R; discriminate. }
  destruct (same_text (firstn (length $"geoarrow.wkb") b) $"geoarrow.wkb") eqn:E9.
  { apply same_text_eq in E9.
    assert (R : av_type v <> TBinary -> av_type v <> TLargeBinary -> av_type v <> TBinaryView ->
      schema_complaint s (Some b) $"Expected storage type of binary or large_binary for extension 'geoarrow.wkb'").
    { intros H1 H2 H3. apply not_binary; [exact E9|]. intros f Hf F. destruct (binary_type s v W B (ex_intro _ f (conj Hf F))) as [H|[H|H]]; contradiction. }
    destruct (av_type v); try exact I; left; apply R; discriminate. }
  unfold e_unrecognized. rewrite (proj1 Hn). cbn [or_ub asked next settled]. left. apply unrecognized; [|apply up_to_nul_ok].
  intros t ->. destruct t as [[] d l|[] w]; cbn [type_name] in *; rewrite ?same_text_refl in *; try discriminate.
Qed.

(** ** The call *)
Lemma erase_view_init s : well_formed s -> erase (e_view_init s) = schema_view_init s.
Proof.
  intros W. unfold e_view_init, schema_view_init. rewrite erase_next, erase_view by exact W.
  destruct (wf_holds s W) as (es & H). destruct (arrow_view_cases s W es H) as [->|(v & -> & (N & _) & _)]; [reflexivity|]. cbn [obind].
  destruct (value_of name_key es) as [b|]; [destruct N as (w & -> & Hw); exact (erase_internal s v w b W Hw) | rewrite N; reflexivity].
Qed.

Lemma error_set_text t : exists r, snd (error_set t) = firstn 1023 t ++ [0%N] ++ r.
Proof.
  unfold error_set. cbn [snd]. assert (length (firstn 1023 t) <= 1023)%nat by apply firstn_le_length.
  destruct (1024 - length (firstn 1023 t))%nat as [|n] eqn:E; [lia|]. exists (repeat 0%N n). reflexivity.
Qed.

Lemma told_cases nano before s es : well_formed s -> holds (sc_metadata s) es ->
  (forall n c, within n s c -> short (sc_children c)) ->
  (forall n c t, within n s c -> sc_format c = Some ($"+w:" ++ t) -> length (sc_children c) = 1%nat) ->
  (exists v, schema_view_init s = Ok v /\ schema_told nano before s = Ok (0, before)) \/
  (arrow_view_init s = Err EINVAL /\ schema_view_init s = Err EINVAL /\ schema_told nano before s = Ok (EINVAL, nano)) \/
  (schema_view_init s = Err EINVAL /\ exists message text r, schema_told nano before s = Ok (EINVAL, message) /\
     message = firstn 1023 text ++ [0%N] ++ r /\
     (schema_complaint s (value_of $"ARROW:extension:name" es) text \/
      (value_of $"ARROW:extension:name" es = Some $"geoarrow.box" /\ misnumbered s text))).
Proof.
  intros W H few single. pose proof (erase_view_init s W) as E. rewrite <- E. clear E. unfold schema_told.
  assert (S : arrow_view_init s = Err EINVAL /\ e_view_init s = Foreign EINVAL \/
     settled (e_view_init s) (fun t => schema_complaint s (value_of name_key es) t \/ (value_of name_key es = Some $"geoarrow.box" /\ misnumbered s t))).
  { unfold e_view_init. destruct (arrow_view_cases s W es H) as [->|(v & -> & (N & _) & B)]; [left; auto|]. right. cbn [asked next].
    destruct (value_of name_key es) as [b|].
    - destruct N as (w & -> & Hw). pose proof (internal_settled s v w b W B Hw few single) as S.
      destruct (e_internal s v w); cbn [settled] in *; auto. destruct S as [S|[-> S]]; auto.
    - rewrite N. left. constructor. }
  destruct S as [[EA S]|S].
  - rewrite S. cbn [erase]. auto.
  - destruct (e_view_init s) as [v|t| |]; cbn [settled] in S; try contradiction; cbn [erase].
    + left. eauto.
    + right. right. split; [reflexivity|]. destruct (error_set_text t) as (r & R). exists (snd (error_set t)), t, r. auto.
Qed.

Lemma told_from_storage nano before s view b : well_formed s -> views view b ->
  (forall n c, within n s c -> short (sc_children c)) ->
  (forall n c t, within n s c -> sc_format c = Some ($"+w:" ++ t) -> length (sc_children c) = 1%nat) ->
  let o := schema_view_init_from_storage s view in
  (exists v, o = Ok v /\ storage_told nano before s view = Ok (0, before)) \/
  (arrow_view_init s = Err EINVAL /\ o = Err EINVAL /\ storage_told nano before s view = Ok (EINVAL, nano)) \/
  (o = Err EINVAL /\ exists message text r, storage_told nano before s view = Ok (EINVAL, message) /\
     message = firstn 1023 text ++ [0%N] ++ r /\
     (schema_complaint s (Some b) text \/ (b = $"geoarrow.box" /\ misnumbered s text))).
Proof.
  intros W Hn few single o. subst o. unfold storage_told, e_from_storage, schema_view_init_from_storage.
  destruct (wf_holds s W) as (es & H). destruct (arrow_view_cases s W es H) as [->|(v & -> & _ & B)]; cbn [asked next obind]; [auto|].
  pose proof (internal_settled s v view b W B Hn few single) as S. rewrite <- (erase_internal s v view b W Hn).
  destruct (e_internal s v view) as [w|t| |]; cbn [settled] in S; try contradiction; cbn [erase].
  - left. eauto.
  - right. right. split; [reflexivity|]. destruct (error_set_text t) as (r & R). exists (snd (error_set t)), t, r. auto.
Qed.
