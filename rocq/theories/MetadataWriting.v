(** * Proofs about extension metadata: writing it, and unescaping a CRS *)
From Verif Require Import Base Text MetadataModel MetadataSpec MetadataProofs MetadataReading MetadataMeaning.
Local Open Scope Z_scope.

(** ** Writing into memory *)
Definition over (o : bytes) (i : nat) (b : bytes) : bytes := firstn i o ++ b ++ skipn (i + length b) o.
Lemma write_at_over o i b : (i + length b <= length o)%nat -> write_at o i b = Some (over o i b).
Proof. intros H. unfold write_at. destruct (Nat.leb_spec (i + length b) (length o)); [reflexivity | lia]. Qed.
Lemma over_length o i b : (i + length b <= length o)%nat -> length (over o i b) = length o.
Proof. intros H. unfold over. rewrite !app_length, firstn_length, skipn_length. lia. Qed.
Lemma skipn_skipn' {A} (l : list A) : forall a b, skipn a (skipn b l) = skipn (b + a) l.
Proof.
  induction l as [|x l IH]; intros a [|b]; cbn [skipn plus]; try reflexivity; [destruct a; reflexivity | apply IH].
Qed.
Lemma over_over o i b c : (i + length b + length c <= length o)%nat -> over (over o i b) (i + length b) c = over o i (b ++ c).
Proof.
  intros H. assert (Hi : length (firstn i o) = i) by (rewrite firstn_length; lia).
  unfold over. rewrite app_length.
  assert (E1 : firstn (i + length b) (firstn i o ++ b ++ skipn (i + length b) o) = firstn i o ++ b).
  { rewrite <- Hi at 1. rewrite firstn_app_2. f_equal. rewrite firstn_app, firstn_all, Nat.sub_diag, firstn_O, app_nil_r. reflexivity. }
  rewrite E1.
  assert (E2 : skipn (i + length b + length c) (firstn i o ++ b ++ skipn (i + length b) o) = skipn (i + (length b + length c)) o).
  { rewrite app_assoc, skipn_app.
    rewrite (skipn_all2 (firstn i o ++ b)) by (rewrite app_length; lia). cbn [app].
    rewrite skipn_skipn', app_length, Hi. f_equal. lia. }
  rewrite E2, <- !app_assoc. reflexivity.
Qed.
Lemma over_nil o i : over o i [] = o.
Proof. unfold over. cbn [app length]. rewrite Nat.add_0_r. apply firstn_skipn. Qed.
Lemma filled_over o n t : (Z.to_nat n <= length o)%nat -> filled o n t (over o 0 (firstn (Z.to_nat n) (t ++ [0%N]))).
Proof. intros H. unfold filled, over. reflexivity. Qed.

(** ** The size *)
Lemma write_escaped_length crs : ~ In 92%N crs ->
  Z.of_nat (length (write_escaped crs)) =
  Z.of_nat (length crs) + Z.of_nat (length (filter (fun c => (c =? backslash)%N || (c =? quote)%N) crs)).
Proof.
  induction crs as [|c crs IH]; intros H; [reflexivity|].
  cbn [write_escaped flat_map filter length]. fold (write_escaped crs). rewrite app_length.
  assert (Hc : (c =? backslash)%N = false) by (apply N.eqb_neq; intros ->; apply H; left; reflexivity).
  rewrite Hc. cbn [orb]. specialize (IH ltac:(intros Hi; apply H; right; exact Hi)).
  destruct (c =? quote)%N; cbn [length]; lia.
Qed.
Lemma needs_escape_starts crs : needs_escape crs = negb (starts 34 crs || starts 123 crs).
Proof.
  destruct crs as [|c crs]; [reflexivity|]. cbn [needs_escape starts]. unfold object_open, quote.
  destruct (c =? 34)%N, (c =? 123)%N; reflexivity.
Qed.

Lemma serialized_length m : (m_crs_type m = CRS_NONE \/ starts 34 (m_crs m) || starts 123 (m_crs m) = true \/ ~ In 92%N (m_crs m)) ->
  Z.of_nat (length (serialized m)) = serialized_size m.
Proof.
  intros H. unfold serialized, serialized_size.
  assert (Hc : m_crs_type m <> CRS_NONE ->
    Z.of_nat (length (if needs_escape (m_crs m) then [quote] ++ write_escaped (m_crs m) ++ [quote] else m_crs m)) =
    if needs_escape (m_crs m)
    then 2 + Z.of_nat (length (m_crs m)) + Z.of_nat (length (filter (fun c => (c =? backslash)%N || (c =? quote)%N) (m_crs m)))
    else Z.of_nat (length (m_crs m))).
  { intros Hn. destruct (needs_escape (m_crs m)) eqn:En; [|reflexivity].
    rewrite !app_length. cbn [length]. rewrite needs_escape_starts in En. apply negb_true_iff in En.
    assert (Hb : ~ In 92%N (m_crs m)) by (destruct H as [H|[H|H]]; [contradiction | congruence | exact H]).
    pose proof (write_escaped_length (m_crs m) Hb). lia. }
  destruct (Z.eqb_spec (m_edges m) EDGE_PLANAR) as [E1|E1]; destruct (Z.eqb_spec (m_crs_type m) CRS_NONE) as [E2|E2];
    destruct (Z.eqb_spec (m_crs_type m) CRS_UNKNOWN) as [E3|E3]; try (rewrite E2 in E3; discriminate);
    cbn [negb andb orb]; try specialize (Hc E2);
    repeat rewrite app_length; rewrite ?Nat2Z.inj_add, ?Hc;
    change (length $"""edges"":") with 8%nat; change (length $"""crs_type"":") with 11%nat; change (length $"""crs"":") with 6%nat;
    (match goal with |- context [1 <? ?x] => let b := eval vm_compute in (1 <? x) in change (1 <? x) with b end);
    cbv iota; cbn [length]; lia.
Qed.

(** ** Reading it back *)
Lemma chars_escaped crs : ~ In 92%N crs -> chars (write_escaped crs).
Proof.
  induction crs as [|c crs IH]; intros H; [constructor|].
  cbn [write_escaped flat_map]. fold (write_escaped crs). specialize (IH ltac:(intros Hi; apply H; right; exact Hi)).
  destruct (N.eqb_spec c quote) as [->|Hq]; cbn [app].
  - apply chars_escape. exact IH.
  - constructor; [exact Hq | intros ->; apply H; left; reflexivity | exact IH].
Qed.
Lemma unescaped_escaped crs : ~ In 92%N crs -> unescaped (write_escaped crs) = Some crs.
Proof.
  induction crs as [|c crs IH]; intros H; [reflexivity|].
  cbn [write_escaped flat_map]. fold (write_escaped crs). specialize (IH ltac:(intros Hi; apply H; right; exact Hi)).
  destruct (N.eqb_spec c quote) as [->|Hq]; cbn [app unescaped].
  - change ((backslash =? 92)%N) with true. change ((quote =? 34)%N) with true. cbn [orb]. rewrite IH. reflexivity.
  - assert (Hc : (c =? 92)%N = false) by (apply N.eqb_neq; intros ->; apply H; left; reflexivity).
    rewrite Hc, IH. reflexivity.
Qed.

Definition crs_text (crs : bytes) : bytes := if needs_escape crs then [quote] ++ write_escaped crs ++ [quote] else crs.
Lemma crs_text_json crs : carried_crs crs -> json (crs_text crs) /\ starts 34 (crs_text crs) || starts 123 (crs_text crs) = true.
Proof.
  unfold crs_text. rewrite needs_escape_starts. intros [[H1 H2]|[H1 H2]]; rewrite H2; cbn [negb].
  - split; assumption.
  - split; [|reflexivity]. apply json_str. exists (write_escaped crs). split; [apply chars_escaped; exact H1 | reflexivity].
Qed.

Definition edge_member (m : metadata) : list (bytes * bytes) :=
  if m_edges m =? EDGE_PLANAR then [] else [(quoted $"edges", quoted (edge_type_string (m_edges m)))].
Definition type_member (m : metadata) : list (bytes * bytes) :=
  if (m_crs_type m =? CRS_UNKNOWN) || (m_crs_type m =? CRS_NONE) then [] else [(quoted $"crs_type", quoted (crs_type_string (m_crs_type m)))].
Definition crs_members (m : metadata) : list (bytes * bytes) :=
  if m_crs_type m =? CRS_NONE then [] else [(quoted $"crs", crs_text (m_crs m))].
Definition written_members (m : metadata) : list (bytes * bytes) := edge_member m ++ type_member m ++ crs_members m.

Fixpoint joined (ms : list (bytes * bytes)) : bytes :=
  match ms with
  | [] => []
  | [(k, v)] => k ++ [colon] ++ v
  | (k, v) :: r => k ++ [colon] ++ v ++ [comma] ++ joined r
  end.
Lemma joined_json ms : ms <> [] -> Forall (fun kv => json_string (fst kv) /\ json (snd kv)) ms -> json_members ms (joined ms).
Proof.
  induction ms as [|[k v] ms IH]; intros Hn H; [congruence|]. apply Forall_cons_iff in H as [[Hk Hv] H]. cbn [fst snd] in *.
  destruct ms as [|kv ms].
  - change (joined [(k, v)]) with ([] ++ k ++ [] ++ [colon] ++ [] ++ v). rewrite <- (app_nil_r v) at 2.
    apply json_member; try assumption; constructor.
  - change (joined ((k, v) :: kv :: ms)) with ([] ++ k ++ [] ++ [colon] ++ [] ++ v ++ [] ++ [comma] ++ joined (kv :: ms)).
    apply json_member_more; try assumption; try constructor. apply IH; [discriminate | exact H].
Qed.

Lemma serialized_joined m : serialized m = [object_open] ++ joined (written_members m) ++ [object_close].
Proof.
  unfold serialized, written_members, edge_member, type_member, crs_members.
  change (if needs_escape (m_crs m) then [quote] ++ write_escaped (m_crs m) ++ [quote] else m_crs m) with (crs_text (m_crs m)).
  change $"""edges"":" with (quoted $"edges" ++ [colon]). change $"""crs_type"":" with (quoted $"crs_type" ++ [colon]).
  change $"""crs"":" with (quoted $"crs" ++ [colon]).
  destruct (m_edges m =? EDGE_PLANAR); destruct (Z.eqb_spec (m_crs_type m) CRS_NONE) as [E2|E2];
    destruct (Z.eqb_spec (m_crs_type m) CRS_UNKNOWN) as [E3|E3]; try (rewrite E2 in E3; discriminate);
    cbn [negb andb orb]; cbn [app joined]; unfold quoted; repeat (rewrite <- app_assoc; cbn [app]); reflexivity.
Qed.

Definition known (m : metadata) : Prop := 0 <= m_edges m <= 5 /\ 0 <= m_crs_type m <= 5.

Lemma plain_chars s : forallb (fun c => negb (c =? 34)%N && negb (c =? 92)%N) s = true -> chars s.
Proof.
  induction s as [|c s IH]; cbn [forallb]; intros H; [constructor|]. apply andb_prop in H as [H1 H2]. apply andb_prop in H1 as [H0 H1].
  apply negb_true_iff in H0, H1. apply N.eqb_neq in H0, H1. constructor; auto.
Qed.
Lemma edge_string_plain t : json_string (quoted (edge_type_string t)).
Proof.
  exists (edge_type_string t). split; [|reflexivity]. apply plain_chars. unfold edge_type_string.
  repeat match goal with |- context [if ?b then _ else _] => destruct b; [reflexivity|] end. reflexivity.
Qed.
Lemma crs_type_string_plain t : json_string (quoted (crs_type_string t)).
Proof.
  exists (crs_type_string t). split; [|reflexivity]. apply plain_chars. unfold crs_type_string.
  repeat match goal with |- context [if ?b then _ else _] => destruct b; [reflexivity|] end. reflexivity.
Qed.
Lemma text_const s : forallb (fun c => negb (c =? 34)%N && negb (c =? 92)%N) s = true -> json_string (quoted s).
Proof. intros H. exists s. split; [apply plain_chars; exact H | reflexivity]. Qed.

Lemma written_document m : (m_crs_type m = CRS_NONE \/ carried_crs (m_crs m)) -> json_document (written_members m) (serialized m).
Proof.
  intros Hc. rewrite serialized_joined. exists [], [], (joined (written_members m)).
  split; [constructor|]. split; [constructor|]. split; [reflexivity|].
  destruct (written_members m) as [|kv ms] eqn:E; [left; split; [reflexivity | constructor]|]. right. rewrite <- E.
  apply joined_json; [rewrite E; discriminate|]. unfold written_members, edge_member, type_member, crs_members.
  apply Forall_app; split; [|apply Forall_app; split].
  - destruct (_ =? _); constructor; [|constructor]. split; [apply text_const; reflexivity | apply json_str, edge_string_plain].
  - destruct (_ || _); constructor; [|constructor]. split; [apply text_const; reflexivity | apply json_str, crs_type_string_plain].
  - destruct (Z.eqb_spec (m_crs_type m) CRS_NONE) as [|Hn]; constructor; [|constructor].
    destruct Hc as [Hc|Hc]; [contradiction|]. split; [apply text_const; reflexivity | exact (proj1 (crs_text_json _ Hc))].
Qed.

Lemma written_described m : known m -> (m_crs_type m = CRS_NONE \/ carried_crs (m_crs m)) ->
  NoDup (map fst (written_members m)) /\ plain_crs_type (written_members m) /\
  described (written_members m) =
    Some (Metadata (m_edges m) (m_crs_type m) (if m_crs_type m =? CRS_NONE then [] else crs_text (m_crs m))).
Proof.
  intros [He Ht] Hc.
  assert (Hcrs : m_crs_type m <> CRS_NONE -> exists x r, crs_text (m_crs m) = x :: r /\ (x = 34%N \/ x = 123%N)).
  { intros Hn. destruct Hc as [Hc|Hc]; [contradiction|]. destruct (crs_text_json _ Hc) as [_ H].
    destruct (crs_text (m_crs m)) as [|x r]; [discriminate|]. exists x, r. split; [reflexivity|].
    cbn [starts] in H. apply orb_prop in H as [H|H]; apply N.eqb_eq in H; auto. }
  unfold written_members, edge_member, type_member, crs_members.
  assert (Ee : m_edges m = 0 \/ m_edges m = 1 \/ m_edges m = 2 \/ m_edges m = 3 \/ m_edges m = 4 \/ m_edges m = 5) by lia.
  assert (Et : m_crs_type m = 0 \/ m_crs_type m = 1 \/ m_crs_type m = 2 \/ m_crs_type m = 3 \/ m_crs_type m = 4 \/ m_crs_type m = 5) by lia.
  clear He Ht Hc. destruct m as [e t c]. cbn [m_edges m_crs_type m_crs] in *.
  destruct Et as [->|Et].
  { destruct Ee as [->|[->|[->|[->|[->| ->]]]]]; (split; [|split]);
      [repeat constructor; cbn; tauto | intros v Hv; vm_compute in Hv; discriminate | vm_compute; reflexivity | ..];
      (repeat constructor; cbn; tauto) || (intros v Hv; vm_compute in Hv; discriminate) || (vm_compute; reflexivity). }
  assert (Hn : t <> CRS_NONE) by (unfold CRS_NONE; lia). destruct (Hcrs Hn) as (x & r & Ex & Hx).
  rewrite (proj2 (Z.eqb_neq t CRS_NONE) Hn). rewrite Ex.
  assert (ND : forall a b d : bool, NoDup (map fst ((if a then [] else [(quoted $"edges", quoted (edge_type_string e))]) ++
     (if b then [] else [(quoted $"crs_type", quoted (crs_type_string t))]) ++ [(quoted $"crs", x :: r)]))).
  { intros a b d. destruct a, b; cbn [app map fst];
      repeat (apply NoDup_cons; [cbn; intuition discriminate|]); apply NoDup_nil. }
  split; [apply (ND (e =? EDGE_PLANAR) ((t =? CRS_UNKNOWN) || false) true)|]. clear ND.
  split.
  - intros v Hv _. left.
    destruct Ee as [->|[->|[->|[->|[->| ->]]]]]; destruct Et as [->|[->|[->|[->| ->]]]]; vm_compute in Hv; try discriminate;
      injection Hv as <-; vm_compute; discriminate.
  - unfold described.
    assert (Acc : accepted_value (x :: r) = true).
    { unfold accepted_value. destruct Hx as [-> | ->]; cbn [starts]; rewrite same_neq by discriminate; reflexivity. }
    rewrite !forallb_app. cbn [forallb snd]. rewrite Acc.
    assert (Crs : forall a b : bool, lookup $"crs" ((if a then [] else [(quoted $"edges", quoted (edge_type_string e))]) ++
     (if b then [] else [(quoted $"crs_type", quoted (crs_type_string t))]) ++ [(quoted $"crs", x :: r)]) = Some (x :: r)).
    { intros a b. destruct a, b; reflexivity. }
    rewrite Crs. clear Crs.
    assert (Said : crs_said (Some (x :: r)) = Some (Some (x :: r))).
    { unfold crs_said. destruct Hx as [-> | ->]; rewrite same_neq by discriminate; reflexivity. }
    rewrite Said. clear Said Acc.
    destruct Ee as [->|[->|[->|[->|[->| ->]]]]]; destruct Et as [->|[->|[->|[->| ->]]]]; reflexivity.
Qed.

Lemma read_back past fuel m : known m -> (m_crs_type m = CRS_NONE \/ carried_crs (m_crs m)) -> (length (serialized m) < fuel)%nat ->
  metadata_view_init past fuel (serialized m) =
    Ok (Metadata (m_edges m) (m_crs_type m) (if m_crs_type m =? CRS_NONE then [] else crs_text (m_crs m))).
Proof.
  intros Hk Hc Hf. destruct (written_described m Hk Hc) as (H1 & H2 & H3).
  rewrite (view_init_json past fuel _ _ (written_document m Hc) H1 H2 Hf), H3. reflexivity.
Qed.

Lemma serialize_sized m out n : Z.of_nat (length (serialized m)) = serialized_size m -> n <= Z.of_nat (length out) ->
  exists out', serialize m out n = Ok (Z.of_nat (length (serialized m)), out') /\
    if Z.of_nat (length (serialized m)) <=? n then filled out n (serialized m) out' else out' = out.
Proof.
  intros Hc Hn. unfold serialize. rewrite <- Hc.
  set (t := serialized m). clearbody t. unfold filled.
  destruct (Z.leb_spec (Z.of_nat (length t)) n) as [Hl|Hl].
  - rewrite write_at_over by (cbn; lia). cbn [or_ub obind].
    destruct (Z.ltb_spec (Z.of_nat (length t)) n) as [Hlt|Hge].
    + rewrite Nat2Z.id. rewrite write_at_over by (rewrite over_length; cbn [length]; lia). cbn [or_ub obind].
      change (length t) with (0 + length t)%nat at 2. rewrite over_over by (cbn [length]; lia).
      eexists. split; [reflexivity|]. rewrite firstn_all2 by (rewrite app_length; cbn [length]; lia). reflexivity.
    + cbn [obind]. eexists. split; [reflexivity|].
      replace (Z.to_nat n) with (length t + 0)%nat by lia. rewrite firstn_app_2, firstn_O, app_nil_r. reflexivity.
  - destruct (Z.ltb_spec (Z.of_nat (length t)) n) as [Hlt|Hge]; [lia|]. cbn [obind]. eexists. split; reflexivity.
Qed.

Lemma serialize_fills m out n : (m_crs_type m = CRS_NONE \/ carried_crs (m_crs m)) -> n <= Z.of_nat (length out) ->
  exists out', serialize m out n = Ok (Z.of_nat (length (serialized m)), out') /\
    if Z.of_nat (length (serialized m)) <=? n then filled out n (serialized m) out' else out' = out.
Proof. intros Hc. apply serialize_sized, serialized_length. destruct Hc as [Hc|[[_ Hc]|[Hc _]]]; auto. Qed.

Lemma carried_value crs : ~ In 92%N crs -> starts 34 crs || starts 123 crs = false -> crs_value (crs_text crs) = Some crs.
Proof.
  intros H1 H2. unfold crs_text. rewrite needs_escape_starts, H2. cbn [negb app crs_value]. change ((quote =? 34)%N) with true. cbv iota.
  rewrite removelast_last. apply unescaped_escaped. exact H1.
Qed.

(** ** Unescaping *)
Fixpoint plain_of (is_escape : bool) (s : bytes) : bytes :=
  match s with
  | [] => []
  | c :: s => if negb is_escape && (c =? backslash)%N then plain_of true s else c :: plain_of false s
  end.
Lemma unescape_loop_over n : forall s esc o i, 0 <= i -> n <= Z.of_nat (length o) ->
  unescape_loop n esc s o i =
    Ok (i + Z.of_nat (length (plain_of esc s)),
        if i <=? n then over o (Z.to_nat i) (firstn (Z.to_nat n - Z.to_nat i) (plain_of esc s)) else o).
Proof.
  induction s as [|c s IH]; intros esc o i Hi Hn; cbn [unescape_loop plain_of].
  - rewrite firstn_nil, over_nil. cbn [length]. rewrite Z.add_0_r. destruct (i <=? n); reflexivity.
  - destruct (negb esc && (c =? backslash)%N); [apply IH; assumption|].
    destruct (Z.ltb_spec i n) as [Hlt|Hge].
    + rewrite write_at_over by (cbn [length]; lia). cbn [or_ub obind].
      rewrite IH by (rewrite ?over_length by (cbn [length]; lia); lia).
      replace (i + 1 <=? n) with true by lia. replace (i <=? n) with true by lia.
      cbn [length]. f_equal. f_equal; [lia|].
      replace (Z.to_nat n - Z.to_nat i)%nat with (S (Z.to_nat n - Z.to_nat (i + 1))) by lia. cbn [firstn].
      replace (Z.to_nat (i + 1)) with (Z.to_nat i + length [c])%nat at 1 by (cbn [length]; lia).
      rewrite over_over; [reflexivity|]. cbn [length]. rewrite firstn_length. lia.
    + cbn [obind]. rewrite IH by lia. cbn [length]. f_equal. f_equal; [lia|].
      replace (i + 1 <=? n) with false by lia. destruct (Z.leb_spec i n); [|reflexivity].
      replace (Z.to_nat n - Z.to_nat i)%nat with 0%nat by lia. cbn [firstn]. rewrite over_nil. reflexivity.
Qed.

(** The text that is written for a CRS *)
Definition unescape_text (crs : bytes) : bytes :=
  match crs with [] => [] | c :: r => if (c =? quote)%N then plain_of false (removelast r) else crs end.

Lemma unescape_fills crs o n : 0 <= n <= Z.of_nat (length o) ->
  exists o', unescape_crs crs (Some o) n = Ok (Z.of_nat (length (unescape_text crs)), Some o') /\ filled o n (unescape_text crs) o'.
Proof.
  intros Hn. unfold unescape_crs, unescape_text, filled. destruct crs as [|c r].
  - destruct (Z.ltb_spec 0 n).
    + cbn [or_ub obind]. rewrite write_at_over by (cbn [length]; lia). cbn [or_ub obind]. eexists. split; [reflexivity|].
      cbn [app]. replace (Z.to_nat n) with (S (Z.to_nat n - 1)) by lia. cbn [firstn]. rewrite firstn_nil. reflexivity.
    + cbn [obind]. eexists. split; [reflexivity|]. replace (Z.to_nat n) with 0%nat by lia. reflexivity.
  - destruct (c =? quote)%N eqn:Eq; cbn [negb].
    + rewrite unescape_loop_over by lia. cbn [obind]. set (t := plain_of false (removelast r)). clearbody t.
      rewrite Z.add_0_l. replace (0 <=? n) with true by lia. change (Z.to_nat 0) with 0%nat. rewrite Nat.sub_0_r.
      destruct (Z.ltb_spec (Z.of_nat (length t)) n) as [Hl|Hl].
      * rewrite Nat2Z.id, (firstn_all2 t) by lia.
        rewrite write_at_over by (rewrite over_length; cbn [length]; lia). cbn [or_ub obind].
        eexists. split; [reflexivity|]. change (length t) with (0 + length t)%nat at 1. rewrite over_over by (cbn [length]; lia).
        rewrite firstn_all2 by (rewrite app_length; cbn [length]; lia). reflexivity.
      * cbn [obind]. eexists. split; [reflexivity|]. rewrite firstn_app.
        replace (Z.to_nat n - length t)%nat with 0%nat by lia. rewrite firstn_O, app_nil_r. reflexivity.
    + set (t := c :: r). clearbody t. destruct (Z.ltb_spec (Z.of_nat (length t)) n) as [Hl|Hl].
      * cbn [or_ub obind]. rewrite write_at_over by (rewrite app_length; cbn [length]; lia). cbn [or_ub obind].
        eexists. split; [reflexivity|]. rewrite firstn_all2 by (rewrite app_length; cbn [length]; lia). reflexivity.
      * replace (n <? 0) with false by lia. cbn [or_ub obind]. rewrite write_at_over by (rewrite firstn_length; lia). cbn [or_ub obind].
        eexists. split; [reflexivity|]. rewrite firstn_app. replace (Z.to_nat n - length t)%nat with 0%nat by lia.
        rewrite firstn_O, app_nil_r. reflexivity.
Qed.

Lemma unescape_null crs : unescape_crs crs None 0 = Ok (Z.of_nat (length (unescape_text crs)), None).
Proof.
  unfold unescape_crs, unescape_text. destruct crs as [|c r]; [reflexivity|].
  destruct (c =? quote)%N; cbn [negb].
  - rewrite unescape_loop_over by (cbn; lia). cbn [obind]. rewrite Z.add_0_l.
    destruct (Z.ltb_spec (Z.of_nat (length (plain_of false (removelast r)))) 0); [lia|]. reflexivity.
  - destruct (Z.ltb_spec (Z.of_nat (length (c :: r))) 0); [lia|]. reflexivity.
Qed.

Lemma plain_unescaped : forall s t, plainly_escaped s = true -> unescaped s = Some t -> plain_of false s = t.
Proof.
  fix IH 1. intros [|c s] t; cbn [unescaped plainly_escaped plain_of negb andb]; [intros _ [= <-]; reflexivity|].
  change backslash with 92%N. destruct (c =? 92)%N.
  - destruct s as [|e s]; [discriminate|]. intros Hp. apply andb_prop in Hp as [He Hp].
    assert (E : escape_of e = Some e).
    { apply orb_prop in He as [He|He]; [apply orb_prop in He as [He|He]|]; apply N.eqb_eq in He; subst e; reflexivity. }
    rewrite E. destruct (unescaped s) as [u|] eqn:Eu; [|discriminate]. intros [= <-]. cbn [plain_of negb andb]. f_equal.
    exact (IH s u Hp Eu).
  - intros Hp. destruct (unescaped s) as [u|] eqn:E; [|discriminate]. intros [= <-]. f_equal. exact (IH s u Hp E).
Qed.
Lemma unescape_value crs t : (forall s, crs = quoted s -> plainly_escaped s = true) -> (starts 34 crs = true -> json_string crs) ->
  crs_value crs = Some t -> unescape_text crs = t.
Proof.
  unfold crs_value, unescape_text. intros Hp Hj. destruct crs as [|c r]; [intros [= <-]; reflexivity|].
  change quote with 34%N. cbn [starts] in Hj. destruct (c =? 34)%N; [|intros [= <-]; reflexivity].
  destruct (Hj eq_refl) as (s & _ & E). specialize (Hp s E). unfold quoted in E. cbn [app] in E. injection E as -> ->.
  rewrite removelast_last. apply plain_unescaped. exact Hp.
Qed.

Lemma escaped_plainly crs : ~ In 92%N crs -> plainly_escaped (write_escaped crs) = true.
Proof.
  induction crs as [|c crs IH]; intros H; [reflexivity|].
  cbn [write_escaped flat_map]. fold (write_escaped crs). specialize (IH ltac:(intros Hi; apply H; right; exact Hi)).
  destruct (N.eqb_spec c quote) as [->|Hq]; cbn [app plainly_escaped].
  - exact IH.
  - assert (Hc : (c =? 92)%N = false) by (apply N.eqb_neq; intros ->; apply H; left; reflexivity).
    rewrite Hc. exact IH.
Qed.
Lemma carried_text crs : ~ In 92%N crs -> starts 34 crs || starts 123 crs = false -> unescape_text (crs_text crs) = crs.
Proof.
  intros H1 H2. apply unescape_value; [| |apply carried_value; assumption]; unfold crs_text; rewrite needs_escape_starts, H2; cbn [negb].
  - intros s E. unfold quoted in E. cbn [app] in E. injection E as E. apply app_inj_tail in E as [<- _]. apply escaped_plainly. exact H1.
  - intros _. exists (write_escaped crs). split; [apply chars_escaped; exact H1 | reflexivity].
Qed.

Definition round_trips (m : metadata) (text : bytes) : Prop :=
  (forall out n, n <= Z.of_nat (length out) -> exists out',
    serialize m out n = Ok (Z.of_nat (length text), out') /\
    if Z.of_nat (length text) <=? n then filled out n text out' else out' = out) /\
  (forall past fuel, (length text < fuel)%nat -> exists crs,
    metadata_view_init past fuel text = Ok (Metadata (m_edges m) (m_crs_type m) crs) /\
    (m_crs_type m <> CRS_NONE ->
       if starts 34 (m_crs m) || starts 123 (m_crs m) then crs = m_crs m
       else forall o k, 0 <= k <= Z.of_nat (length o) ->
              exists o', unescape_crs crs (Some o) k = Ok (Z.of_nat (length (m_crs m)), Some o') /\ filled o k (m_crs m) o')).
Lemma serialized_round_trips m : known m -> (m_crs_type m = CRS_NONE \/ carried_crs (m_crs m)) -> round_trips m (serialized m).
Proof.
  intros Hk Hc. split; [intros out n; apply serialize_fills; exact Hc|].
  intros past fuel Hf. eexists. split; [apply read_back; assumption|]. intros Hn.
  rewrite (proj2 (Z.eqb_neq _ _) Hn). destruct Hc as [Hc|Hc]; [contradiction|].
  destruct Hc as [[_ Hs]|[Hb Hs]]; rewrite Hs.
  - unfold crs_text. rewrite needs_escape_starts, Hs. reflexivity.
  - intros o k Ho. destruct (unescape_fills (crs_text (m_crs m)) o k Ho) as (o' & E & Hf').
    rewrite (carried_text _ Hb Hs) in E, Hf'. exists o'. split; assumption.
Qed.

(** A backslash: the announced size is not that of what is written. *)
Lemma backslash_not_read_back : exists m out size out',
  known m /\ serialize m out 64 = Ok (size, out') /\ length out = 64%nat /\
  metadata_view_init (Some 0%N) 65 (firstn (Z.to_nat size) out') = Err EINVAL.
Proof.
  exists (Metadata EDGE_PLANAR CRS_UNKNOWN $"a\b"), (repeat 170%N 64). eexists _, _.
  split; [split; vm_compute; split; discriminate|]. split; [vm_compute; reflexivity|]. split; [reflexivity|]. vm_compute. reflexivity.
Qed.

Lemma unescape_fills_value crs t o n : crs_value crs = Some t ->
  (starts 34 crs = true -> json_string crs) -> (forall s, crs = quoted s -> plainly_escaped s = true) ->
  0 <= n <= Z.of_nat (length o) ->
  exists o', unescape_crs crs (Some o) n = Ok (Z.of_nat (length t), Some o') /\ filled o n t o'.
Proof.
  intros Hv Hj Hp Hn. destruct (unescape_fills crs o n Hn) as (o' & E & Hf). rewrite (unescape_value crs t Hp Hj Hv) in E, Hf.
  exists o'. split; assumption.
Qed.
