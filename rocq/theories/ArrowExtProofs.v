(** * Proofs about extension types *)
From Verif Require Import Base Text TypesSpec MetadataModel MetadataSpec MetadataReading MetadataWriting MetadataReread SchemaModel SchemaSpec SchemaMetadata SchemaProofs SchemaViews CppWkbModel CppDataTypeModel CppDataTypeSpec CppDataTypeProofs
  ArrowExtModel ArrowExtSpec.
Local Open Scope Z_scope.

Lemma alone_represents o v raw : rep o v raw -> represents (alone o) [Some v].
Proof.
  intros R. constructor; cbn [alone st_objects st_fresh buffers flat_map app].
  - constructor; [exists raw; exact R | constructor].
  - constructor; [intros [] | constructor].
  - constructor; [lia | constructor].
Qed.
Lemma serialized_kept m : (m_crs_type m = CRS_NONE \/ carriable (m_crs m)) -> serialized (kept m) = serialized m.
Proof.
  intros H. rewrite !serialized_joined. f_equal. f_equal. f_equal. unfold written_members, edge_member, type_member, crs_members, kept. cbn [m_edges m_crs_type m_crs].
  destruct (Z.eqb_spec (m_crs_type m) CRS_NONE) as [E|E]; [reflexivity|]. destruct H as [H|H]; [contradiction|]. rewrite crs_text_again by exact H. reflexivity.
Qed.
Lemma same_storage_stored t t' s : same_storage t t' -> stored t s -> stored t' s.
Proof.
  intros [->|(k & k' & d & l & -> & -> & H)]; [auto|]. cbn [In] in H.
  destruct H as [H|[H|[H|[H|[]]]]]; injection H as <- <-; cbn [stored levels]; auto.
Qed.

Section Ext.
  Context {dtype : Type} (null_type : dtype) (import : schema -> option dtype) (export : dtype -> option schema) (equal : dtype -> dtype -> bool).
  Hypothesis Harrow : arrow_ok import export equal.
  Variable junk : nat -> N.
  Let eval := ArrowExtModel.eval dtype null_type import export junk.

  Definition good (x : ext dtype) (v : value) : Prop :=
    exists t s raw, v_type v = Some t /\ exists_type t /\ export (x_storage x) = Some s /\ well_formed s /\ stored t s /\ x_name x = type_name t /\ rep (x_type x) v raw.

  Lemma good_shows x v : good x v -> shows export junk x v.
  Proof.
    intros (t & s & raw & Ev & He & Es & W & S & En & R). exists t, s. do 6 (split; [assumption|]).
    pose proof (alone_represents _ _ _ R) as Ha. pose proof (looks junk _ _ 0%nat v Ha eq_refl) as L.
    split; [exact L|]. destruct L as (o & Eo & L). injection Eo as <-. destruct L as (_ & _ & _ & _ & _ & _ & Lt & _ & Lm & _). split; [exact Lm|].
    unfold ext_to_string. rewrite Lt by lia. reflexivity.
  Qed.

  Lemma name_is o v raw t : rep o v raw -> v_type v = Some t -> exists_type t -> extension_name o = Ok (type_name t).
  Proof. intros R Ev He. unfold extension_name. rewrite (rep_type _ _ _ R), Ev. cbn [id_of]. rewrite (name_from_type t He). reflexivity. Qed.
  Lemma from_good d s o v raw t : rep o v raw -> v_type v = Some t -> exists_type t -> export d = Some s -> well_formed s -> stored t s ->
    exists x, from_storage_and_type dtype d o = Ok x /\ good x v.
  Proof.
    intros R Ev He Es W S. unfold from_storage_and_type. rewrite (name_is o v raw t R Ev He). cbn [obind]. eexists. split; [reflexivity|].
    exists t, s, raw. cbn [x_storage x_type x_name]. do 6 (split; [assumption || reflexivity|]). apply copy_rep. exact R.
  Qed.

  Lemma empty_represents : represents empty_store [].
  Proof. constructor; cbn; constructor. Qed.
  Lemma makes_type_typed vs z text v : makes vs (FromType z text) (Some v) -> exists t, v_type v = Some t /\ exists_type t /\ z = type_id t.
  Proof. intros H. inversion H; subst. eexists. split; [reflexivity|]. split; [assumption | reflexivity]. Qed.

  Lemma make_of_good o text v : proper_maker (FromType (o_type o) text) -> makes [] (FromType (o_type o) text) (Some v) ->
    exists x, make_of dtype import o text = Ok (Got x) /\ good x v.
  Proof.
    intros Hp Hm. destruct (makes_type_typed _ _ _ _ Hm) as (t & Ev & He & _).
    destruct (make_is junk empty_store [] empty_represents _ _ 1%nat Hp Hm) as (o' & raw & E & R & _). cbn [make] in E.
    unfold make_of. rewrite E. cbn [obind]. unfold init_storage_schema. rewrite (rep_type _ _ _ R), Ev. cbn [id_of].
    destruct (init_created t He) as (s & Es & F & S). rewrite Es. cbn [throw_not_ok obind].
    assert (W : well_formed s). { destruct F as (f & cs & -> & Hc & Hf). apply (wf_simple f None None 2 cs []); auto using holds_none. }
    destruct (proj1 Harrow t s He W S) as (d & s' & -> & Ed & W' & S').
    destruct (from_good d s' o' v raw t R Ev He Ed W' S') as (x & -> & G). exists x. split; [reflexivity | exact G].
  Qed.
  Lemma make_type_good z text v : proper_maker (FromType z text) -> makes [] (FromType z text) (Some v) ->
    exists x, make_type_id dtype import z text = Ok (Got x) /\ good x v.
  Proof.
    intros Hp Hm. destruct (makes_type_typed _ _ _ _ Hm) as (t & Ev & He & ->).
    unfold make_type_id. rewrite (from_type_made t [] 1 He). change (string_metadata []) with (Ok start_metadata). cbn [obind].
    assert (E : o_type (built t start_metadata 1) = type_id t) by (unfold built; destruct (parts t) as [[? ?] ?]; reflexivity).
    rewrite <- E in Hp, Hm. destruct (make_of_good _ text v Hp Hm) as (x & -> & G). exists x. split; [reflexivity | exact G].
  Qed.
  Lemma make_parts_good g d c text v : proper_maker (FromParts g d c text) -> makes [] (FromParts g d c text) (Some v) ->
    exists x, make_parts dtype import g d c text = Ok (Got x) /\ good x v.
  Proof.
    intros Hp Hm. destruct (make_is junk empty_store [] empty_represents _ _ 1%nat Hp Hm) as (o' & raw & E & R & _). cbn [make] in E.
    inversion Hm as [|g' d' c' text' t m Hc Hs| | | | | | | | | | | | | | | | | |]; subst.
    unfold make_parts. rewrite E. cbn [obind]. destruct Hc as (k & d' & l & -> & He & _).
    assert (Et : o_type o' = type_id (Native k d' l)) by exact (rep_type _ _ _ R).
    destruct (make_of_good o' text (value_of_metadata (Native k d' l) m)) as (x & -> & G).
    - rewrite Et. split; [right; eexists; split; [exact He | reflexivity] | exact (proj2 (proj2 (proj2 Hp)))].
    - rewrite Et. apply makes_type; assumption.
    - exists x. split; [reflexivity | exact G].
  Qed.

  Lemma with_good x v k w : good x v -> proper_maker k -> makes [Some v] k (Some w) -> keeps_storage v w ->
    exists y, with_changed dtype junk x k = Ok (Got y) /\ good y w.
  Proof.
    intros (t & s & raw & Ev & He & Es & W & S & En & R) Hp Hm (t1 & t' & Ev1 & Ew & K). rewrite Ev in Ev1. injection Ev1 as <-.
    destruct (make_is junk _ _ (alone_represents _ _ _ R) _ _ 1%nat Hp Hm) as (o' & raw' & E & R' & _).
    unfold with_changed. rewrite E. cbn [obind]. pose proof (rep_exists _ _ _ R') as He'. rewrite Ew in He'. cbn [type_exists] in He'.
    destruct (from_good (x_storage x) s o' w raw' t' R' Ew He' Es W (same_storage_stored t t' s K S)) as (y & -> & G). exists y. split; [reflexivity | exact G].
  Qed.
  Lemma copied_good x v : good x v -> exists y, copied dtype x = Ok (Got y) /\ good y v.
  Proof.
    intros (t & s & raw & Ev & He & Es & W & S & En & R). unfold copied.
    destruct (from_good (x_storage x) s (x_type x) v raw t R Ev He Es W S) as (y & -> & G). exists y. split; [reflexivity | exact G].
  Qed.

  Lemma text_is x v raw : rep (x_type x) v raw -> serialize_ext dtype junk x = Ok (serialized (metadata_with v raw)).
  Proof. intros R. exact (text_shows junk _ _ 0%nat _ v raw (alone_represents _ _ _ R) eq_refl R). Qed.
  Lemma back_good x v t : good x v -> v_type v = Some t ->
    exists y, read_back dtype null_type export junk x = Ok (Got y) /\ good y (retyped v t) /\
      extension_equals dtype equal junk x y = Ok true /\ extension_equals dtype equal junk y x = Ok true.
  Proof.
    intros (t1 & s & raw & Ev & He & Es & W & S & En & R) Ev1. rewrite Ev in Ev1. injection Ev1 as <-.
    unfold read_back. rewrite (text_is x v raw R). cbn [obind]. unfold deserialize. rewrite Es. cbn [dummy x_name]. rewrite En.
    rewrite (storage_made s t1 _ 1 W He S), (text_read v raw _ R). cbn [obind].
    set (m := kept (metadata_with v raw)).
    assert (R' : rep (built t1 m 1) (retyped v t1) (m_crs m)).
    { unfold m. rewrite <- (kept_value v raw _ t1 R). apply built_rep; [exact He | exact (rep_known _ _ _ R) | |].
      - cbn [kept m_crs_type m_crs metadata_with]. destruct (rep_carriable _ _ _ R) as [Hc|Hc]; [left; exact Hc|].
        destruct (v_crs_type v =? CRS_NONE) eqn:E; [left; apply Z.eqb_eq; exact E | right; apply kept_carriable; exact Hc].
      - cbn [kept m_crs_type m_crs metadata_with]. destruct (Z.eqb_spec (v_crs_type v) CRS_NONE) as [E|E]; [cbn; lia|].
        destruct (rep_carriable _ _ _ R) as [Hc|Hc]; [contradiction|]. rewrite crs_text_again by exact Hc. exact (rep_length _ _ _ R). }
    unfold from_storage_and_type. rewrite (name_is _ _ _ t1 R' eq_refl He). cbn [obind caught].
    set (y := Ext (x_storage x) (copy_object (built t1 m 1) 0) (type_name t1)). exists y. split; [reflexivity|].
    pose proof (copy_rep _ _ _ 0%nat R') as R2.
    split. { exists t1, s, (m_crs m). cbn [y x_storage x_type x_name retyped v_type]. do 6 (split; [assumption || reflexivity|]). exact R2. }
    assert (Ey : serialize_ext dtype junk y = Ok (serialized (metadata_with v raw))).
    { rewrite (text_is y _ _ R2). f_equal. rewrite <- (serialized_kept (metadata_with v raw)) by exact (rep_carriable _ _ _ R). reflexivity. }
    unfold extension_equals. rewrite Ey, (text_is x v raw R). cbn [y x_name x_storage obind]. rewrite En, !same_bytes_refl, (proj1 (proj2 Harrow)). auto.
  Qed.

  Lemma typed_kept v w t : v_type v = Some t -> v_type w = v_type v -> keeps_storage v w.
  Proof. intros E F. exists t, t. split; [exact E|]. split; [congruence | left; reflexivity]. Qed.
  Lemma edges_typed v z w : makes [Some v] (WithEdgeType 0 z) (Some w) -> v_type w = v_type v.
  Proof. intros H. inversion H as [| | | | | | | | | | | | |i e v0 Hv| | | | | |]; subst. injection Hv as <-. reflexivity. Qed.
  Lemma crs_typed v crs z w : makes [Some v] (WithCrs 0 crs z) (Some w) -> v_type w = v_type v.
  Proof. intros H. inversion H as [| | | | | | | | | | | | | |i e z0 v0 Hv| | | | |]; subst. injection Hv as <-. reflexivity. Qed.

  Lemma eval_good e v : amounts e v -> proper_expr e -> storage_kept e -> exists x, eval e = Ok (Got x) /\ good x v.
  Proof.
    unfold eval. induction 1 as [g d c text v H|z text v H|o text v H|e v H IH|e v g w H IH M|e v c w H IH M|e v d w H IH M|e v z w H IH M|e v crs z w H IH M|e v t H IH Ev];
      intros Hp Hk; cbn [proper_expr storage_kept ArrowExtModel.eval] in *.
    - exact (make_parts_good g d c text v Hp H).
    - exact (make_type_good z text v Hp H).
    - exact (make_of_good o text v Hp H).
    - destruct (IH Hp Hk) as (x & -> & G). exact (copied_good x v G).
    - destruct Hp as [Hp Hq], Hk as [Hk Hs]. destruct (IH Hp Hk) as (x & -> & G). apply (with_good x v _ w G Hq M). apply Hs; [exact H | econstructor; eauto].
    - destruct Hp as [Hp Hq], Hk as [Hk Hs]. destruct (IH Hp Hk) as (x & -> & G). apply (with_good x v _ w G Hq M). apply Hs; [exact H | econstructor; eauto].
    - destruct Hp as [Hp Hq], Hk as [Hk Hs]. destruct (IH Hp Hk) as (x & -> & G). apply (with_good x v _ w G Hq M). apply Hs; [exact H | econstructor; eauto].
    - destruct Hp as [Hp Hq]. destruct (IH Hp Hk) as (x & -> & G). apply (with_good x v _ w G Hq M). destruct G as (t & _ & _ & Ev & _). exact (typed_kept v w t Ev (edges_typed _ _ _ M)).
    - destruct Hp as [Hp Hq]. destruct (IH Hp Hk) as (x & -> & G). apply (with_good x v _ w G Hq M). destruct G as (t & _ & _ & Ev & _). exact (typed_kept v w t Ev (crs_typed _ _ _ _ M)).
    - destruct (IH Hp Hk) as (x & -> & G). destruct (back_good x v t G Ev) as (y & E & Gy & _). exists y. split; [exact E | exact Gy].
  Qed.

  Theorem ext_values e v : amounts e v -> proper_expr e -> storage_kept e ->
    exists x, eval e = Ok (Got x) /\ shows export junk x v /\ survives null_type export equal junk x v.
  Proof.
    intros H Hp Hk. destruct (eval_good e v H Hp Hk) as (x & E & G). exists x. split; [exact E|]. split; [exact (good_shows x v G)|].
    pose proof G as (t & s & raw & Ev & _). destruct (back_good x v t G Ev) as (y & Eb & Gy & E1 & E2).
    exists y, t. split; [exact Ev|]. split; [exact Eb|]. split; [exact (good_shows y _ Gy)|]. split; assumption.
  Qed.

  (** ** Types that are equal *)
  Lemma stored_unique t t' s : well_formed s -> exists_type t -> exists_type t' -> stored t s -> stored t' s -> type_name t = type_name t' -> type_id t = type_id t'.
  Proof.
    intros W He He' S S' En. pose proof (storage_made s t [] 0%nat W He S) as A. rewrite En, (storage_made s t' [] 0%nat W He' S') in A.
    change (string_metadata []) with (Ok start_metadata) in A. cbn [obind] in A. injection A as A. apply (f_equal o_type) in A.
    unfold built in A. destruct (parts t) as [[? ?] ?], (parts t') as [[? ?] ?]. symmetry. exact A.
  Qed.
  Lemma type_id_inj t t' : type_id t = type_id t' -> t = t'.
  Proof. destruct t as [[] [] []|[] []], t' as [[] [] []|[] []]; intros E; (reflexivity || discriminate E). Qed.
  Theorem ext_equal x y v w : shows export junk x v -> shows export junk y w -> extension_equals dtype equal junk x y = Ok true ->
    exists t, v_type v = Some t /\ v_type w = Some t /\ retyped v t = retyped w t.
  Proof.
    intros (t & s & Ev & He & Es & W & S & En & _ & (text & m & Em & Hm & Hv) & _) (t' & s' & Ew & He' & Es' & W' & S' & En' & _ & (text' & m' & Em' & Hm' & Hw) & _).
    unfold extension_equals. rewrite Em, Em'. cbn [obind]. destruct (same_bytes (x_name x) (x_name y)) eqn:N; [|discriminate].
    apply same_bytes_eq in N. destruct (same_bytes text text') eqn:T; [|discriminate]. apply same_bytes_eq in T. subst text'. intros [= Eq].
    assert (t = t').
    { apply type_id_inj. apply (stored_unique t t' s' W' He He'); [|exact S' | congruence]. exact (proj2 (proj2 Harrow) _ _ s s' t Eq Es Es' S). }
    subst t'. exists t. split; [exact Ev|]. split; [exact Ew|]. unfold string_says in Hm, Hm'. rewrite Hm in Hm'. injection Hm' as <-. rewrite <- (Hv t). exact (Hw t).
  Qed.

  (** ** Errors *)
  Lemma caught_err c : caught dtype (Err c) = Ok Invalid.
  Proof. reflexivity. Qed.
  Theorem invalid_parts g d c text : proper_maker (FromParts g d c text) -> makes [] (FromParts g d c text) None -> eval (MakeParts g d c text) = Ok Invalid.
  Proof.
    intros Hp Hm. destruct (make_is junk empty_store [] empty_represents _ _ 1%nat Hp Hm) as [code E]. cbn [make] in E.
    unfold eval. cbn [ArrowExtModel.eval]. unfold make_parts. rewrite E. reflexivity.
  Qed.
  Lemma invalid_of o text : proper_maker (FromType (o_type o) text) -> makes [] (FromType (o_type o) text) None -> make_of dtype import o text = Ok Invalid.
  Proof.
    intros Hp Hm. destruct (make_is junk empty_store [] empty_represents _ _ 1%nat Hp Hm) as [code E]. cbn [make] in E.
    unfold make_of. rewrite E. reflexivity.
  Qed.
  Theorem invalid_type z text : proper_maker (FromType z text) -> makes [] (FromType z text) None -> eval (MakeType z text) = Ok Invalid.
  Proof.
    intros [Hz Hl] Hm. unfold eval. cbn [ArrowExtModel.eval]. unfold make_type_id. destruct Hz as [->|(t & He & ->)]; [reflexivity|].
    rewrite (from_type_made t [] 1 He). change (string_metadata []) with (Ok start_metadata). cbn [obind].
    assert (E : o_type (built t start_metadata 1) = type_id t) by (unfold built; destruct (parts t) as [[? ?] ?]; reflexivity).
    rewrite invalid_of; [reflexivity | rewrite E; split; [right; eexists; split; [exact He | reflexivity] | exact Hl] | rewrite E; exact Hm].
  Qed.
  Theorem thrown e v k : amounts e v -> proper_expr e -> storage_kept e -> proper_maker k -> makes [Some v] k None ->
    exists c, and_then dtype (eval e) (fun x => with_changed dtype junk x k) = Err c.
  Proof.
    intros H Hp Hk Hq Hm. destruct (eval_good e v H Hp Hk) as (x & E & t & s & raw & _ & _ & _ & _ & _ & _ & R).
    destruct (make_is junk _ _ (alone_represents _ _ _ R) _ _ 1%nat Hq Hm) as [code Em].
    rewrite E. cbn [and_then obind]. unfold with_changed. rewrite Em. exists code. reflexivity.
  Qed.
End Ext.

(** ** The registry *)
Lemma unregister_filter todo : forall names, (forall n, In n todo -> registered names n = true) -> NoDup todo ->
  unregister_names todo names = (filter (fun m => negb (registered todo m)) names, true).
Proof.
  induction todo as [|n todo IH]; intros names H Hd; cbn [unregister_names].
  - f_equal. symmetry. cbn [registered existsb negb]. induction names as [|m names IHn]; [reflexivity|]. cbn [filter]. rewrite IHn at 1; [reflexivity|]. intros n [].
  - rewrite (H n (or_introl eq_refl)). inversion Hd as [|? ? Hn Hd']; subst. rewrite IH; [|intros m Hm|exact Hd'].
    + f_equal. clear. induction names as [|m names IH]; [reflexivity|]. cbn [filter registered existsb]. fold (registered todo m).
      destruct (same_bytes m n) eqn:E; cbn [negb orb]; [exact IH|]. cbn [filter]. rewrite IH. reflexivity.
    + specialize (H m (or_intror Hm)). unfold registered in *. apply existsb_exists in H as (x & Hi & Ex). apply existsb_exists. exists x. split; [|exact Ex].
      apply filter_In. split; [exact Hi|]. apply same_bytes_eq in Ex. subst x. destruct (same_bytes m n) eqn:E; [|reflexivity]. apply same_bytes_eq in E. subst m. contradiction.
Qed.
Lemma register_ok todo : forall names, (forall n, In n todo -> registered names n = false) -> NoDup todo ->
  register_names todo names = (rev todo ++ names, true).
Proof.
  induction todo as [|n todo IH]; intros names H Hd; cbn [register_names]; [reflexivity|]. rewrite (H n (or_introl eq_refl)). inversion Hd as [|? ? Hn Hd']; subst.
  rewrite IH; [|intros m Hm|exact Hd'].
  - cbn [rev]. rewrite <- app_assoc. reflexivity.
  - cbn [registered existsb]. fold (registered names m). rewrite (H m (or_intror Hm)), orb_false_r. destruct (same_bytes m n) eqn:E; [|reflexivity]. apply same_bytes_eq in E. subst m. contradiction.
Qed.
Lemma names_nodup : NoDup all_ext_names.
Proof.
  assert (H : forall l : list bytes, distinct_texts l = true -> NoDup l).
  { induction l as [|x l IH]; cbn [distinct_texts]; intros H; constructor; apply andb_prop in H as [H1 H2]; [|exact (IH H2)].
    intros Hi. rewrite forallb_forall in H1. specialize (H1 x Hi). unfold same_text in H1. destruct (list_eq_dec N.eq_dec x x); [discriminate H1 | contradiction]. }
  apply H. vm_compute. reflexivity.
Qed.
Lemma registered_in names n : registered names n = true <-> In n names.
Proof.
  unfold registered. rewrite existsb_exists. split; [intros (x & Hi & E); apply same_bytes_eq in E; subst x; exact Hi | intros H; exists n; split; [exact H | apply same_bytes_refl]].
Qed.
Theorem registry names : (forall n, In n all_ext_names -> ~ In n names) ->
  exists names', register_all names = (names', true) /\ (forall n, In n names' <-> In n all_ext_names \/ In n names) /\
    snd (register_all names') = false /\ unregister_all names' = (names, true).
Proof.
  intros H. assert (H' : forall n, In n all_ext_names -> registered names n = false).
  { intros n Hn. destruct (registered names n) eqn:E; [|reflexivity]. apply registered_in in E. destruct (H n Hn E). }
  exists (rev all_ext_names ++ names). split; [exact (register_ok all_ext_names names H' names_nodup)|]. split.
  { intros n. rewrite in_app_iff, <- in_rev. reflexivity. }
  split.
  { unfold register_all. assert (I : In $"geoarrow.wkb" (rev all_ext_names ++ names)) by (apply in_or_app; left; apply -> in_rev; left; reflexivity).
    apply registered_in in I. unfold all_ext_names at 1. cbn [register_names]. rewrite I. reflexivity. }
  unfold unregister_all. rewrite unregister_filter; [|intros n Hn; apply registered_in, in_or_app; left; apply -> in_rev; exact Hn|exact names_nodup].
  f_equal. rewrite filter_app. assert (E1 : forall l, incl l all_ext_names -> filter (fun m => negb (registered all_ext_names m)) l = []).
  { induction l as [|x l IH]; intros Hl; [reflexivity|]. cbn [filter]. rewrite (proj2 (registered_in all_ext_names x)) by (apply Hl; left; reflexivity). apply IH. intros y Hy. apply Hl. right. exact Hy. }
  rewrite E1 by (intros x Hx; apply in_rev; exact Hx). cbn [app]. clear H' E1. induction names as [|x l IH]; [reflexivity|]. cbn [filter].
  destruct (registered all_ext_names x) eqn:E; [apply registered_in in E; destruct (H x E); left; reflexivity|]. cbn [negb]. f_equal. apply IH. intros n Hn Hi. exact (H n Hn (or_intror Hi)).
Qed.
Lemma registered_types t names : (forall n, In n names <-> In n all_ext_names) -> registered names (type_name t) = negb (unregistered_type t).
Proof.
  intros H. destruct (registered names (type_name t)) eqn:E.
  - apply registered_in, H, registered_in in E. destruct t as [[] [] []|[] []]; (reflexivity || (vm_compute in E; discriminate E)).
  - destruct (unregistered_type t) eqn:U; [reflexivity|]. exfalso. assert (In (type_name t) names); [|apply registered_in in H0; congruence].
    apply H, registered_in. destruct t as [[] [] []|[] []]; (reflexivity || discriminate U).
Qed.
Theorem received_types {dtype} null_type export junk names (x : ext dtype) v t : shows export junk x v -> v_type v = Some t -> (forall n, In n names <-> In n all_ext_names) ->
  received dtype null_type export junk names x = (if unregistered_type t then Ok None else do r <- read_back dtype null_type export junk x; Ok (Some r)).
Proof.
  intros (t' & s & Ev & He & Es & W & S & En & _) Ev' H. rewrite Ev in Ev'. injection Ev' as ->. unfold received. rewrite En, (registered_types t names H). destruct (unregistered_type t); reflexivity.
Qed.

(** ** An Arrow that keeps schemas as they are *)
Definition same_opt (a b : option bytes) : bool := match a, b with Some a, Some b => same_bytes a b | None, None => true | _, _ => false end.
Lemma same_opt_eq a b : same_opt a b = true -> a = b.
Proof. destruct a, b; cbn; try discriminate; [intros H; apply same_bytes_eq in H; congruence | reflexivity]. Qed.
Lemma same_opt_refl a : same_opt a a = true.
Proof. destruct a; [apply same_bytes_refl | reflexivity]. Qed.
Fixpoint same_schema (a b : schema) {struct a} : bool :=
  match a, b with
  | Schema r f n m fl cs d, Schema r' f' n' m' fl' cs' d' =>
      Bool.eqb r r' && same_opt f f' && same_opt n n' && same_opt m m' && (fl =? fl') &&
      (fix all (cs cs' : list (option schema)) : bool :=
         match cs, cs' with
         | [], [] => true
         | Some c :: cs, Some c' :: cs' => same_schema c c' && all cs cs'
         | None :: cs, None :: cs' => all cs cs'
         | _, _ => false
         end) cs cs' &&
      match d, d' with Some d, Some d' => same_schema d d' | None, None => true | _, _ => false end
  end.
Lemma same_schema_eq : forall a b, same_schema a b = true -> a = b.
Proof.
  fix IH 1. intros [r f n m fl cs d] [r' f' n' m' fl' cs' d'] H. cbn [same_schema] in H.
  apply andb_prop in H as [H Hd]. apply andb_prop in H as [H Hc]. apply andb_prop in H as [H H4]. apply andb_prop in H as [H H3].
  apply andb_prop in H as [H H2]. apply andb_prop in H as [H H1]. apply Bool.eqb_prop in H.
  assert (d = d') as <- by (destruct d as [d|], d' as [d'|]; try discriminate Hd; [f_equal; apply IH; exact Hd | reflexivity]).
  assert (cs = cs') as <-.
  { clear -IH Hc. revert cs' Hc. induction cs as [|[c|] cs IHc]; intros [|[c'|] cs'] Hc; try discriminate Hc; [reflexivity| |].
    - apply andb_prop in Hc as [H1 H2]. f_equal; [f_equal; apply IH; exact H1 | apply IHc; exact H2].
    - f_equal. apply IHc. exact Hc. }
  apply same_opt_eq in H1, H2, H3. apply Z.eqb_eq in H4. congruence.
Qed.
Lemma same_schema_refl : forall a, same_schema a a = true.
Proof.
  fix IH 1. intros [r f n m fl cs d]. cbn [same_schema]. rewrite Bool.eqb_reflx, !same_opt_refl, Z.eqb_refl. cbn [andb].
  apply andb_true_intro. split.
  - induction cs as [|[c|] cs IHc]; [reflexivity | rewrite IH; exact IHc | exact IHc].
  - destruct d as [d|]; [apply IH | reflexivity].
Qed.
Lemma plain_arrow_ok : arrow_ok (@Some schema) Some same_schema.
Proof.
  split; [|split].
  - intros t s He W S. exists s, s. auto.
  - exact same_schema_refl.
  - intros a b s s' t E [= <-] [= <-] S. apply same_schema_eq in E. subst b. exact S.
Qed.
