(** * Proofs about extension metadata: which texts are accepted, and what they are read as *)
From Verif Require Import Base Text MetadataModel MetadataSpec MetadataProofs.
Local Open Scope Z_scope.

Definition start_metadata : metadata := Metadata EDGE_PLANAR CRS_NONE [].
(** The last step: without a CRS, there is no type of CRS. *)
Definition finish (m : metadata) : metadata := match m_crs m with [] => set_crs_type m CRS_NONE | _ :: _ => m end.
(** Every error is reported as EINVAL. *)
Definition as_einval {A} (o : outcome A) : outcome A := match o with Err _ => Err EINVAL | o => o end.

Lemma loose_trim ms b r : loose_members ms b -> exists b', loose_members ms b' /\ (length b' <= length b)%nat /\
  skip_whitespace (b ++ 125%N :: r) = b' ++ 125%N :: r.
Proof.
  intros [|w1 k w2 w3 v j Hw1 Hk Hw2 Hw3 Hv Hj|w1 k w2 w3 v j ms' b' Hw1 Hk Hw2 Hw3 Hv Hj Hms].
  - exists []. split; [constructor | split; [lia | reflexivity]].
  - exists ([] ++ k ++ w2 ++ [58%N] ++ w3 ++ v ++ j). split; [constructor; try assumption; constructor|].
    split; [cbn [app]; rewrite (app_length w1); lia|].
    rewrite <- app_assoc, skip_blank by exact Hw1. cbn [app]. rewrite <- app_assoc. apply text_nonblank. exact Hk.
  - exists ([] ++ k ++ w2 ++ [58%N] ++ w3 ++ v ++ j ++ [44%N] ++ b'). split; [apply loose_more; try assumption; constructor|].
    split; [cbn [app]; rewrite (app_length w1); lia|].
    rewrite <- app_assoc, skip_blank by exact Hw1. cbn [app]. rewrite <- app_assoc. apply text_nonblank. exact Hk.
Qed.

Lemma view_init_loose past fuel ms b : loose_document ms b -> (length b < fuel)%nat ->
  metadata_view_init past fuel b = as_einval (do m <- members_fold start_metadata ms; Ok (finish m)).
Proof.
  intros (w & w1 & w' & body & Hw & Hw1 & Hw' & -> & Hms) Hf.
  unfold metadata_view_init.
  destruct (w ++ [123%N] ++ w1 ++ body ++ [125%N] ++ w') eqn:E; [destruct w; discriminate|]. rewrite <- E in *. clear E n l.
  repeat rewrite app_length in Hf. cbn [length] in Hf.
  rewrite skip_blank by exact Hw. cbn [app]. rewrite (skip_none 123) by reflexivity.
  unfold parse_json. cbn [parse_char]. change ((123 =? object_open)%N) with true. cbv iota. cbn [obind].
  rewrite skip_blank by exact Hw1.
  destruct (loose_trim ms body w' Hms) as (b' & Hb' & Hl & E). rewrite E.
  rewrite (members_loop_loose _ ms b' Hb') by lia. fold start_metadata.
  destruct (members_fold start_metadata ms) as [m| | |]; try reflexivity.
  cbn [obind parse_char]. change ((125 =? object_close)%N) with true. cbv iota. cbn [obind].
  rewrite skip_blank_end by exact Hw'. reflexivity.
Qed.

Lemma view_init_ok past fuel b m : metadata_view_init past fuel b = Ok m ->
  b = [] /\ m = start_metadata \/
  exists ms m0, loose_document ms b /\ members_fold start_metadata ms = Ok m0 /\ m = finish m0.
Proof.
  unfold metadata_view_init. destruct b as [|c0 b0]; [intros [= <-]; left; split; reflexivity|].
  set (b := c0 :: b0). clearbody b. intros H. right.
  destruct (skip_split b) as (w & Hw & Eb).
  unfold parse_json in H. destruct (skip_whitespace b) as [|c s]; [discriminate|]. cbn [parse_char] in H.
  destruct (N.eqb_spec c object_open) as [->|]; [|discriminate]. cbn [obind] in H.
  destruct (skip_split s) as (w1 & Hw1 & Es). fold start_metadata in H.
  destruct (members_loop past fuel start_metadata (skip_whitespace s)) as [[m0 s1]| | |] eqn:Em; cbn [obind] in H; try discriminate.
  destruct s1 as [|c1 s1]; [discriminate|]. cbn [parse_char] in H.
  destruct (N.eqb_spec c1 object_close) as [->|]; [|discriminate]. cbn [obind] in H.
  apply members_loop_ok in Em as (ms & body & Hms & Ebody & Hfold). rewrite Ebody in Es. subst s.
  destruct (skip_split s1) as (w' & Hw' & Es1). destruct (skip_whitespace s1); [|discriminate].
  rewrite app_nil_r in Es1. subst s1. injection H as <-.
  exists ms, m0. split; [|split; [exact Hfold | reflexivity]].
  exists w, w1, w', body. repeat split; try assumption.
Qed.

(** ** JSON texts are accepted *)
Lemma span_app close a b : span close a -> span close b -> span close (a ++ b).
Proof.
  induction 1 as [close|close c s Hc _ IH|close t s Ht _ IH|close i s Hi _ _ IH|close i s Hi _ _ IH]; intros Hb.
  - exact Hb.
  - cbn [app]. constructor; [exact Hc | auto].
  - rewrite <- app_assoc. apply span_string; [exact Ht | auto].
  - repeat rewrite <- app_assoc. apply span_array; [exact Hi | auto].
  - repeat rewrite <- app_assoc. apply span_object; [exact Hi | auto].
Qed.
Lemma span_others close s : Forall (fun c => ~ In c [0; 34; 91; 123; close]%N) s -> span close s.
Proof. induction 1; constructor; assumption. Qed.

Lemma Forall_forallb {A} (p : A -> bool) (P : A -> Prop) l : (forall a, p a = true -> P a) -> forallb p l = true -> Forall P l.
Proof.
  intros H. induction l as [|a l IH]; cbn [forallb]; intros E; [constructor|]. apply andb_prop in E as [E1 E2].
  constructor; auto.
Qed.
Definition other_for (close : N) (c : N) : bool := negb (existsb (N.eqb c) [0; 34; 91; 123; close]%N).
Lemma other_for_ok close c : other_for close c = true -> ~ In c [0; 34; 91; 123; close]%N.
Proof.
  unfold other_for. intros H Hi. assert (existsb (N.eqb c) [0; 34; 91; 123; close]%N = true); [|rewrite H0 in H; discriminate].
  apply existsb_exists. exists c. split; [exact Hi | apply N.eqb_refl].
Qed.
Lemma span_literal close s : forallb (other_for close) s = true -> span close s.
Proof. intros H. apply span_others. revert H. apply Forall_forallb. apply other_for_ok. Qed.
(** Characters from a list of other characters *)
Lemma span_from close l s : forallb (other_for close) l = true -> Forall (fun x => In x l) s -> span close s.
Proof.
  intros Hl Hs. apply span_others. eapply Forall_impl; [|exact Hs]. intros c Hc. cbv beta in Hc.
  apply other_for_ok. rewrite forallb_forall in Hl. apply Hl. exact Hc.
Qed.
Lemma span_blank close w : In close [93; 125]%N -> blank w -> span close w.
Proof. intros [<-|[<-|[]]] H; (eapply span_from; [|exact H]; reflexivity). Qed.
Lemma span_number close b : In close [93; 125]%N -> json_number b -> span close b.
Proof.
  intros Hc (c & s & -> & H1 & H2). change (c :: s) with ([c] ++ s). apply span_app.
  - eapply (span_from close $"-0123456789"); [destruct Hc as [<-|[<-|[]]]; reflexivity | constructor; [exact H1 | constructor]].
  - eapply (span_from close $"+-.eE0123456789"); [destruct Hc as [<-|[<-|[]]]; reflexivity | exact H2].
Qed.
Lemma span_text close t : json_string t -> span close t.
Proof. intros H. rewrite <- (app_nil_r t). apply span_string; [exact H | constructor]. Qed.
Lemma span_array' close i : span 93 i -> span close ([91%N] ++ i ++ [93%N]).
Proof. intros H. exact (span_array close i [] H (span_nil close)). Qed.
Lemma span_object' close i : span 125 i -> span close ([123%N] ++ i ++ [125%N]).
Proof. intros H. exact (span_object close i [] H (span_nil close)). Qed.

Scheme json_mut := Minimality for json Sort Prop
  with json_items_mut := Minimality for json_items Sort Prop
  with json_members_mut := Minimality for json_members Sort Prop.
Combined Scheme json_all_mut from json_mut, json_items_mut, json_members_mut.

Lemma span_json :
  (forall v, json v -> forall close, In close [93; 125]%N -> span close v) /\
  (forall b, json_items b -> span 93 b) /\
  (forall ms b, json_members ms b -> span 125 b).
Proof.
  apply json_all_mut.
  - intros close [<-|[<-|[]]]; apply span_literal; reflexivity.
  - intros close [<-|[<-|[]]]; apply span_literal; reflexivity.
  - intros close [<-|[<-|[]]]; apply span_literal; reflexivity.
  - intros b H close Hc. apply span_number; assumption.
  - intros b H close Hc. apply span_text; assumption.
  - intros w Hw close _. apply span_array'. apply span_blank; [cbn; auto | exact Hw].
  - intros b _ H close _. apply span_array'. exact H.
  - intros w Hw close _. apply span_object'. apply span_blank; [cbn; auto | exact Hw].
  - intros ms b _ H close _. apply span_object'. exact H.
  - intros w v w' Hw _ Hv Hw'. repeat apply span_app; try (apply span_blank; cbn; auto; fail). apply Hv. cbn; auto.
  - intros w v w' b Hw _ Hv Hw' _ Hb. repeat apply span_app; try (apply span_blank; cbn; auto; fail); try assumption.
    + apply Hv. cbn; auto.
    + apply span_literal. reflexivity.
  - intros w1 k w2 w3 v w4 H1 Hk H2 H3 _ Hv H4. repeat apply span_app; try (apply span_blank; cbn; auto; fail).
    + apply span_text. exact Hk.
    + apply span_literal. reflexivity.
    + apply Hv. cbn; auto.
  - intros w1 k w2 w3 v w4 ms b H1 Hk H2 H3 _ Hv H4 _ Hb.
    repeat apply span_app; try (apply span_blank; cbn; auto; fail); try assumption.
    + apply span_text. exact Hk.
    + apply span_literal. reflexivity.
    + apply Hv. cbn; auto.
    + apply span_literal. reflexivity.
Qed.

Lemma starts_neq c d v : starts c v = true -> c <> d -> starts d v = false.
Proof. destruct v as [|x v]; [discriminate|]. cbn [starts]. intros H. apply N.eqb_eq in H. subst. intros Hn. apply N.eqb_neq. exact Hn. Qed.

Lemma json_loose v : json v -> accepted_value v = true -> loose_value v.
Proof.
  intros H Ha. destruct H.
  - left. reflexivity.
  - discriminate.
  - discriminate.
  - exfalso. destruct H as (c & s & -> & Hc & _). unfold accepted_value in Ha.
    vm_compute in Hc. repeat (destruct Hc as [<-|Hc]; [rewrite same_neq in Ha by discriminate; discriminate Ha|]). contradiction.
  - right; left. exact H.
  - right; right; left. exists w. split; [apply span_blank; [cbn; auto | exact H] | reflexivity].
  - right; right; left. exists b. split; [apply span_json; exact H | reflexivity].
  - right; right; right. exists w. split; [apply span_blank; [cbn; auto | exact H] | reflexivity].
  - right; right; right. exists b. split; [eapply span_json; exact H | reflexivity].
Qed.

Lemma blank_junk w : blank w -> junk w.
Proof.
  intros H. eapply Forall_impl; [|exact H]. intros c Hc. cbv beta in *. cbn in Hc.
  destruct Hc as [<-|[<-|[<-|[<-|[]]]]]; cbn; intuition discriminate.
Qed.

Lemma json_members_loose ms b : json_members ms b -> forallb (fun kv => accepted_value (snd kv)) ms = true -> loose_members ms b.
Proof.
  induction 1 as [w1 k w2 w3 v w4 H1 Hk H2 H3 Hv H4|w1 k w2 w3 v w4 ms b H1 Hk H2 H3 Hv H4 _ IH]; cbn [forallb snd]; intros Ha;
    apply andb_prop in Ha as [Ha Hr].
  - apply loose_last; try assumption; [apply json_loose; assumption | apply blank_junk; exact H4].
  - apply loose_more; try assumption; [apply json_loose; assumption | apply blank_junk; exact H4 | apply IH; exact Hr].
Qed.
Lemma json_document_loose ms b : json_document ms b -> forallb (fun kv => accepted_value (snd kv)) ms = true -> loose_document ms b.
Proof.
  intros (w & w' & body & Hw & Hw' & -> & [[-> Hb]|Hms]) Ha.
  - exists w, body, w', []. repeat split; try assumption. constructor.
  - exists w, [], w', body. repeat split; try assumption; [constructor | apply json_members_loose; assumption].
Qed.

(** ** A value that is not accepted *)
Section Refuse.
  Variable past : option N.

  Lemma find_value_word fuel v s : json v -> accepted_value v = false -> find_value past fuel (v ++ s) = Err EINVAL.
  Proof.
    intros H Ha. destruct H; try discriminate.
    - reflexivity.
    - reflexivity.
    - destruct H as (c & t & -> & Hc & _). vm_compute in Hc.
      repeat (destruct Hc as [<-|Hc]; [reflexivity|]). contradiction.
    - exfalso. destruct H as (t & _ & ->). unfold accepted_value, quoted in Ha. cbn [app starts] in Ha.
      rewrite same_neq in Ha by discriminate. discriminate.
  Qed.

  Lemma member_code m k v : (exists m', member m k v = Ok m') \/ member m k v = Err EINVAL.
  Proof.
    unfold member, edges_member, crs_member, crs_type_member.
    repeat match goal with |- context [if ?b then _ else _] => destruct b end; eauto.
  Qed.

  Lemma json_word_nonblank v s : json v -> accepted_value v = false -> skip_whitespace (v ++ s) = v ++ s.
  Proof.
    intros H Ha. destruct H; try discriminate; try reflexivity.
    - destruct H as (c & t & -> & Hc & _). vm_compute in Hc. repeat (destruct Hc as [<-|Hc]; [reflexivity|]). contradiction.
    - apply text_nonblank. exact H.
  Qed.

  Lemma members_loop_refuse ms b : json_members ms b -> forallb (fun kv => accepted_value (snd kv)) ms = false ->
    forall fuel m r, (length b < fuel)%nat -> members_loop past fuel m (b ++ 125%N :: r) = Err EINVAL.
  Proof.
    assert (Word : forall fuel m w1 k w2 w3 v s, blank w1 -> json_string k -> blank w2 -> blank w3 -> json v ->
      accepted_value v = false -> members_loop past (S fuel) m (w1 ++ k ++ w2 ++ [58%N] ++ w3 ++ v ++ s) = Err EINVAL).
    { intros fuel m w1 k w2 w3 v s H1 Hk H2 H3 Hv Ha. cbn [members_loop].
      destruct (blank_not_close w1 k (w2 ++ [58%N] ++ w3 ++ v ++ s) H1 Hk) as (c & r & E & Ec).
      rewrite E, Ec, <- E. clear c r E Ec.
      rewrite skip_blank, text_nonblank by assumption. rewrite find_string_text by exact Hk. cbn [obind].
      rewrite skip_blank by exact H2. cbn [app]. rewrite (skip_none 58) by reflexivity.
      unfold parse_char at 1. change ((58 =? colon)%N) with true. cbv iota. cbn [obind].
      rewrite skip_blank, json_word_nonblank by assumption. rewrite find_value_word by assumption. reflexivity. }
    induction 1 as [w1 k w2 w3 v w4 H1 Hk H2 H3 Hv H4|w1 k w2 w3 v w4 ms b H1 Hk H2 H3 Hv H4 _ IH]; cbn [forallb snd];
      intros Ha fuel m r Hf; (destruct fuel as [|fuel]; [lia|]); repeat rewrite <- app_assoc.
    - rewrite andb_true_r in Ha. apply Word; assumption.
    - destruct (accepted_value v) eqn:Ev; [|apply Word; assumption]. cbn [andb] in Ha.
      repeat rewrite app_length in Hf. cbn [length] in Hf.
      rewrite members_step; try assumption; [|apply json_loose; assumption | apply blank_junk; exact H4 | lia].
      destruct (member_code m k v) as [(m' & E)|E]; rewrite E; [|reflexivity]. cbn [obind].
      cbn [app skip_until]. change ((44 =? 0)%N) with false. cbv iota.
      change (existsb (N.eqb 44) [comma; object_close]) with true. cbv iota. cbn [snd peek obind].
      change ((44 =? comma)%N) with true. cbv iota. cbn [tl]. apply IH; [exact Ha | lia].
  Qed.

  Lemma json_trim ms b r : json_members ms b -> exists b', json_members ms b' /\ (length b' <= length b)%nat /\
    skip_whitespace (b ++ 125%N :: r) = b' ++ 125%N :: r.
  Proof.
    intros [w1 k w2 w3 v j Hw1 Hk Hw2 Hw3 Hv Hj|w1 k w2 w3 v j ms' b' Hw1 Hk Hw2 Hw3 Hv Hj Hms].
    - exists ([] ++ k ++ w2 ++ [58%N] ++ w3 ++ v ++ j). split; [constructor; try assumption; constructor|].
      split; [cbn [app]; rewrite (app_length w1); lia|].
      rewrite <- app_assoc, skip_blank by exact Hw1. cbn [app]. rewrite <- app_assoc. apply text_nonblank. exact Hk.
    - exists ([] ++ k ++ w2 ++ [58%N] ++ w3 ++ v ++ j ++ [44%N] ++ b'). split; [apply json_member_more; try assumption; constructor|].
      split; [cbn [app]; rewrite (app_length w1); lia|].
      rewrite <- app_assoc, skip_blank by exact Hw1. cbn [app]. rewrite <- app_assoc. apply text_nonblank. exact Hk.
  Qed.

  Lemma view_init_refuse fuel ms b : json_document ms b -> forallb (fun kv => accepted_value (snd kv)) ms = false ->
    (length b < fuel)%nat -> metadata_view_init past fuel b = Err EINVAL.
  Proof.
    intros (w & w' & body & Hw & Hw' & -> & [[-> Hb]|Hms]) Ha Hf; [discriminate|].
    unfold metadata_view_init.
    destruct (w ++ [123%N] ++ body ++ [125%N] ++ w') eqn:E; [destruct w; discriminate|]. rewrite <- E in *. clear E n l.
    repeat rewrite app_length in Hf. cbn [length] in Hf.
    rewrite skip_blank by exact Hw. cbn [app]. rewrite (skip_none 123) by reflexivity.
    unfold parse_json. cbn [parse_char]. change ((123 =? object_open)%N) with true. cbv iota. cbn [obind].
    destruct (json_trim ms body w' Hms) as (b' & Hb' & Hl & E). rewrite E.
    rewrite (members_loop_refuse ms b' Hb' Ha) by lia. reflexivity.
  Qed.
End Refuse.
