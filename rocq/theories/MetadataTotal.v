(** * Proofs about extension metadata: termination of the reader, and what it reads past the end *)
From Verif Require Import Base Text MetadataModel MetadataSpec MetadataProofs MetadataReading MetadataMeaning.
Local Open Scope Z_scope.

Definition no_nul (s : bytes) : Prop := Forall (fun c => c <> 0%N) s.

Lemma no_nul_app a b : no_nul (a ++ b) <-> no_nul a /\ no_nul b.
Proof. apply Forall_app. Qed.
Lemma no_nul_tl s : no_nul s -> no_nul (tl s).
Proof. destruct s; [trivial|]. intros H. inversion H. assumption. Qed.

Section Past.
  Variable past : option N.

  (** Over a text without NUL, each function returns or fails. *)
  Definition returns {A} (o : outcome (A * bytes)) (s : bytes) : Prop :=
    (exists v r, o = Ok (v, r) /\ no_nul r /\ (length r < length s)%nat) \/ o = Err EINVAL \/ o = UB.

  Lemma find_string_returns s : no_nul s -> returns (find_string past s) s.
  Proof.
    intros Hs. destruct s as [|c s].
    - unfold find_string. cbn [peek tl string_loop]. destruct past as [p|]; cbn [obind]; [|right; right; reflexivity].
      destruct (p =? quote)%N; right; left; reflexivity.
    - unfold find_string. cbn [peek obind tl]. destruct (c =? quote)%N eqn:E; [|right; left; reflexivity].
      destruct (string_loop_cases s false) as [(r & Er & L)|Er]; rewrite Er; cbn [obind]; [|right; left; reflexivity].
      left. eexists _, r. split; [reflexivity|]. split; [|cbn; lia].
      apply string_loop_ok in Er as (t & _ & ->). apply Forall_inv_tail in Hs. apply no_nul_app in Hs as [_ Hs].
      apply Forall_inv_tail in Hs. exact Hs.
  Qed.

  Lemma nested_loop_returns : forall fuel close s, In close [93; 125]%N -> no_nul s -> (length s < fuel)%nat ->
    (exists r, nested_loop past fuel close s = Ok r /\ no_nul r /\ (length r < length s)%nat) \/
    nested_loop past fuel close s = Err EINVAL.
  Proof.
    induction fuel as [|fuel IH]; intros close s Hcl Hs Hf; [lia|].
    cbn [nested_loop]. destruct s as [|a s0]; [right; reflexivity|].
    pose proof (skip_until_found [list_open; object_open; quote; close] (a :: s0)) as Hsk.
    destruct (skip_until _ (a :: s0)) as [f s]. destruct Hsk as (j & Hj & Es & Hff).
    assert (Hn : (1 <= length (a :: s0))%nat) by (cbn; lia). rewrite Es in *. clear Es a s0.
    apply no_nul_app in Hs as [_ Hs]. rewrite app_length in *.
    destruct f.
    2:{ destruct Hff as [->|(r' & ->)]; [right; destruct fuel as [|fuel]; [cbn in Hf, Hn; lia | reflexivity] | inversion Hs; congruence]. }
    destruct Hff as (c & s' & -> & Hc). cbn [peek obind tl length] in *.
    pose proof (Forall_inv_tail Hs) as Hs'.
    destruct (N.eqb_spec c quote) as [->|Hq].
    - assert (E : find_string past (quote :: s') = do rest <- string_loop false s'; Ok (up_to (quote :: s') rest, rest)) by reflexivity.
      rewrite E. clear E.
      destruct (string_loop_cases s' false) as [(r & Er & L)|Er]; rewrite Er; cbn [obind]; [|right; reflexivity].
      apply string_loop_ok in Er as (t & _ & ->). apply no_nul_app in Hs' as [_ Hs'].
      apply Forall_inv_tail in Hs'. rewrite app_length in *. cbn [length] in *.
      destruct (IH close r Hcl Hs' ltac:(lia)) as [(r' & E & Hr & Lr)|E]; [left; exists r'; split; [exact E | split; [exact Hr | lia]] | right; exact E].
    - destruct (N.eqb_spec c list_open) as [->|Hl].
      + destruct (IH list_close s' ltac:(cbn; auto) Hs' ltac:(lia)) as [(r & E & Hr & Lr)|E]; rewrite E; cbn [obind]; [|right; reflexivity].
        destruct (IH close r Hcl Hr ltac:(lia)) as [(r' & E' & Hr' & Lr')|E']; [left; exists r'; split; [exact E' | split; [exact Hr' | lia]] | right; exact E'].
      + destruct (N.eqb_spec c object_open) as [->|Ho].
        * destruct (IH object_close s' ltac:(cbn; auto) Hs' ltac:(lia)) as [(r & E & Hr & Lr)|E]; rewrite E; cbn [obind]; [|right; reflexivity].
          destruct (IH close r Hcl Hr ltac:(lia)) as [(r' & E' & Hr' & Lr')|E']; [left; exists r'; split; [exact E' | split; [exact Hr' | lia]] | right; exact E'].
        * left. exists s'. split; [reflexivity | split; [exact Hs' | lia]].
  Qed.

  Lemma find_value_returns fuel s : no_nul s -> (length s < fuel)%nat -> returns (find_value past fuel s) s.
  Proof.
    intros Hs Hf. unfold find_value. destruct (peek past s) as [c| | |] eqn:Ep; cbn [obind].
    2,3,4: destruct s as [|x s]; cbn [peek] in Ep; [|discriminate]; destruct past; try discriminate; right; right; reflexivity.
    assert (Tl : no_nul (tl s)) by (apply no_nul_tl; exact Hs).
    assert (Lt : (length (tl s) < fuel)%nat) by (destruct s; cbn in *; lia).
    destruct (c =? list_open)%N eqn:E1.
    { unfold find_list. rewrite Ep. cbn [obind]. rewrite E1.
      destruct (nested_loop_returns fuel list_close (tl s) ltac:(cbn; auto) Tl Lt) as [(r & E & Hr & Lr)|E]; rewrite E; cbn [obind];
        [|right; left; reflexivity].
      left. eexists _, r. split; [reflexivity|]. split; [exact Hr | destruct s; cbn in *; lia]. }
    destruct (c =? object_open)%N eqn:E2.
    { unfold find_object. rewrite Ep. cbn [obind]. rewrite E2.
      destruct (nested_loop_returns fuel object_close (tl s) ltac:(cbn; auto) Tl Lt) as [(r & E & Hr & Lr)|E]; rewrite E; cbn [obind];
        [|right; left; reflexivity].
      left. eexists _, r. split; [reflexivity|]. split; [exact Hr | destruct s; cbn in *; lia]. }
    destruct (c =? quote)%N; [apply find_string_returns; exact Hs|].
    destruct (c =? 110)%N; [|right; left; reflexivity].
    unfold find_null. destruct (slice s 0 4) as [v|] eqn:Es; [|right; left; reflexivity].
    destruct (same_bytes v $"null"); [|right; left; reflexivity].
    left. exists v, (skipn 4 s). split; [reflexivity|]. split.
    - rewrite <- (firstn_skipn 4 s) in Hs. apply no_nul_app in Hs as [_ Hs]. exact Hs.
    - unfold slice in Es. destruct ((0 <=? 0) && (0 + Z.of_nat 4 <=? Z.of_nat (length s))) eqn:El; [|discriminate].
      rewrite skipn_length. lia.
  Qed.

  Lemma skip_whitespace_length s : (length (skip_whitespace s) <= length s)%nat.
  Proof. destruct (skip_split s) as (w & _ & E). rewrite E at 2. rewrite app_length. lia. Qed.
  Lemma skip_whitespace_no_nul s : no_nul s -> no_nul (skip_whitespace s).
  Proof. intros H. destruct (skip_split s) as (w & _ & E). rewrite E in H. apply no_nul_app in H as [_ H]. exact H. Qed.

  Lemma parse_char_returns s c : no_nul s -> (exists r, parse_char s c = Ok r /\ no_nul r /\ (length r < length s)%nat) \/ parse_char s c = Err EINVAL.
  Proof.
    destruct s as [|x s]; [right; reflexivity|]. cbn [parse_char]. intros H.
    destruct (x =? c)%N; [|right; reflexivity]. left. exists s. split; [reflexivity|]. split; [exact (Forall_inv_tail H) | cbn; lia].
  Qed.

  Lemma members_loop_terminates : forall fuel m s, no_nul s -> (length s < fuel)%nat -> members_loop past fuel m s <> NoFuel.
  Proof.
    induction fuel as [|fuel IH]; intros m s Hs Hf; [lia|].
    cbn [members_loop]. destruct s as [|c0 s0]; [discriminate|]. destruct (c0 =? object_close)%N; [discriminate|].
    set (s := c0 :: s0) in *. clearbody s.
    pose proof (skip_whitespace_length s) as L1. pose proof (skip_whitespace_no_nul s Hs) as N1.
    destruct (find_string_returns (skip_whitespace s) N1) as [(k & s2 & E & N2 & L2)|[E|E]]; rewrite E; try discriminate. cbn [obind].
    pose proof (skip_whitespace_length s2) as L3. pose proof (skip_whitespace_no_nul s2 N2) as N3.
    destruct (parse_char_returns (skip_whitespace s2) colon N3) as [(s4 & E4 & N4 & L4)|E4]; rewrite E4; try discriminate. cbn [obind].
    pose proof (skip_whitespace_length s4) as L5. pose proof (skip_whitespace_no_nul s4 N4) as N5.
    destruct (find_value_returns (S fuel) (skip_whitespace s4) N5 ltac:(lia)) as [(v & s6 & E6 & N6 & L6)|[E6|E6]]; rewrite E6; try discriminate.
    cbn [obind]. destruct (member_code m k v) as [(m' & Em)|Em]; rewrite Em; [|discriminate]. cbn [obind].
    pose proof (skip_until_found [comma; object_close] s6) as Hsk.
    destruct (skip_until _ s6) as [f s7]. destruct Hsk as (j & _ & Ej & _). cbn [snd]. subst s6.
    apply no_nul_app in N6 as [_ N7]. rewrite app_length in L6.
    destruct (peek past s7) as [c| | |] eqn:Ep; cbn [obind]; try discriminate.
    - apply IH; [destruct (c =? comma)%N; [apply no_nul_tl|]; exact N7|].
      destruct (c =? comma)%N; [destruct s7; cbn in *|]; lia.
    - destruct s7; cbn in Ep; [destruct past|]; discriminate.
  Qed.

  Lemma view_init_terminates fuel b : no_nul b -> (length b < fuel)%nat -> metadata_view_init past fuel b <> NoFuel.
  Proof.
    intros Hb Hf. unfold metadata_view_init. destruct b as [|c0 b0]; [discriminate|]. set (b := c0 :: b0) in *. clearbody b.
    unfold parse_json. pose proof (skip_whitespace_length b) as L1. pose proof (skip_whitespace_no_nul b Hb) as N1.
    destruct (parse_char_returns (skip_whitespace b) object_open N1) as [(s & E & N2 & L2)|E]; rewrite E; [|discriminate]. cbn [obind].
    pose proof (skip_whitespace_length s) as L3. pose proof (skip_whitespace_no_nul s N2) as N3.
    pose proof (members_loop_terminates fuel (Metadata EDGE_PLANAR CRS_NONE []) (skip_whitespace s) N3 ltac:(lia)) as H.
    destruct (members_loop past fuel _ (skip_whitespace s)) as [[m s2]| | |]; [|discriminate|discriminate|congruence]. cbn [obind].
    destruct (parse_char s2 object_close) as [s3| | |] eqn:Ec; cbn [obind].
    - destruct (skip_whitespace s3); discriminate.
    - discriminate.
    - destruct s2; cbn in Ec; [|destruct (n =? object_close)%N]; discriminate.
    - destruct s2; cbn in Ec; [|destruct (n =? object_close)%N]; discriminate.
  Qed.
End Past.

(** ** What is read past the end *)
Lemma find_string_past p q c s : find_string p (c :: s) = find_string q (c :: s).
Proof. reflexivity. Qed.
Lemma find_string_end c : find_string (Some c) [] = Err EINVAL.
Proof. unfold find_string. cbn [peek obind tl string_loop]. destruct (c =? quote)%N; reflexivity. Qed.

Lemma nested_loop_past p q : forall fuel close s, nested_loop p fuel close s = nested_loop q fuel close s.
Proof.
  induction fuel as [|fuel IH]; intros close s; [reflexivity|]. cbn [nested_loop].
  destruct s as [|a s0]; [reflexivity|].
  pose proof (skip_until_found [list_open; object_open; quote; close] (a :: s0)) as Hsk.
  destruct (skip_until _ (a :: s0)) as [f s]. destruct Hsk as (j & _ & _ & Hf). destruct f; [|apply IH].
  destruct Hf as (c & s' & -> & _). cbn [peek obind tl]. rewrite (find_string_past p q).
  destruct (c =? quote)%N.
  - destruct (find_string q (c :: s')) as [[v r]| | |]; try reflexivity. cbn [obind]. apply IH.
  - rewrite (IH list_close), (IH object_close).
    destruct (c =? list_open)%N; [|destruct (c =? object_open)%N; [|reflexivity]].
    + destruct (nested_loop q fuel list_close s'); try reflexivity. cbn [obind]. apply IH.
    + destruct (nested_loop q fuel object_close s'); try reflexivity. cbn [obind]. apply IH.
Qed.
Lemma find_value_past p q fuel c s : find_value p fuel (c :: s) = find_value q fuel (c :: s).
Proof.
  unfold find_value, find_list, find_object. cbn [peek obind tl]. rewrite (find_string_past p q).
  rewrite !(nested_loop_past p q). reflexivity.
Qed.
Lemma find_value_end c fuel : find_value (Some c) (S fuel) [] = Err EINVAL.
Proof.
  unfold find_value, find_list, find_object. rewrite find_string_end. cbn [peek obind tl nested_loop].
  destruct (c =? list_open)%N; [reflexivity|]. destruct (c =? object_open)%N; [reflexivity|]. destruct (c =? quote)%N; [reflexivity|].
  destruct (c =? 110)%N; reflexivity.
Qed.

(** With a byte after the end nothing undefined is read, and the byte has no influence. *)
Lemma members_loop_some c : forall fuel m s, members_loop (Some c) fuel m s = members_loop (Some 0%N) fuel m s.
Proof.
  induction fuel as [|fuel IH]; intros m s; [reflexivity|]. cbn [members_loop].
  destruct s as [|x s0]; [reflexivity|]. destruct (x =? object_close)%N; [reflexivity|].
  set (s := x :: s0). clearbody s.
  assert (Ef : find_string (Some c) (skip_whitespace s) = find_string (Some 0%N) (skip_whitespace s)).
  { destruct (skip_whitespace s); [rewrite !find_string_end; reflexivity | apply find_string_past]. }
  rewrite Ef. clear Ef. destruct (find_string (Some 0%N) (skip_whitespace s)) as [[k s2]| | |]; try reflexivity. cbn [obind].
  destruct (parse_char (skip_whitespace s2) colon) as [s4| | |]; try reflexivity. cbn [obind].
  assert (Ev : find_value (Some c) (S fuel) (skip_whitespace s4) = find_value (Some 0%N) (S fuel) (skip_whitespace s4)).
  { destruct (skip_whitespace s4); [rewrite !find_value_end; reflexivity | apply find_value_past]. }
  rewrite Ev. clear Ev. destruct (find_value (Some 0%N) (S fuel) (skip_whitespace s4)) as [[v s6]| | |]; try reflexivity. cbn [obind].
  destruct (member m k v) as [m'| | |]; try reflexivity. cbn [obind].
  destruct (snd (skip_until [comma; object_close] s6)) as [|y s7]; cbn [peek obind tl].
  - change ((0 =? comma)%N) with false. cbv iota. destruct (c =? comma)%N; apply IH.
  - destruct (y =? comma)%N; apply IH.
Qed.
Lemma view_init_some c fuel b : metadata_view_init (Some c) fuel b = metadata_view_init (Some 0%N) fuel b.
Proof.
  unfold metadata_view_init, parse_json. destruct b; [reflexivity|].
  destruct (parse_char _ object_open); try reflexivity. cbn [obind]. rewrite members_loop_some. reflexivity.
Qed.

Lemma find_string_no_ub c s : find_string (Some c) s <> UB.
Proof.
  destruct s as [|x s]; [rewrite find_string_end; discriminate|]. unfold find_string. cbn [peek obind tl].
  destruct (x =? quote)%N; [|discriminate]. destruct (string_loop_cases s false) as [(r & E & _)|E]; rewrite E; discriminate.
Qed.
Lemma nested_loop_no_ub past : forall fuel close s, nested_loop past fuel close s <> UB.
Proof.
  induction fuel as [|fuel IH]; intros close s; [discriminate|]. cbn [nested_loop].
  destruct s as [|a s0]; [discriminate|].
  pose proof (skip_until_found [list_open; object_open; quote; close] (a :: s0)) as Hsk.
  destruct (skip_until _ (a :: s0)) as [f s]. destruct Hsk as (j & _ & _ & Hf). destruct f; [|apply IH].
  destruct Hf as (c & s' & -> & _). cbn [peek obind tl].
  destruct (c =? quote)%N.
  - rewrite (find_string_past past (Some 0%N)). pose proof (find_string_no_ub 0%N (c :: s')) as H.
    destruct (find_string _ (c :: s')) as [[v r]| | |]; try discriminate; [apply IH | congruence].
  - destruct (c =? list_open)%N; [|destruct (c =? object_open)%N; [|discriminate]].
    + pose proof (IH list_close s') as H. destruct (nested_loop past fuel list_close s'); try discriminate; [apply IH | congruence].
    + pose proof (IH object_close s') as H. destruct (nested_loop past fuel object_close s'); try discriminate; [apply IH | congruence].
Qed.
Lemma find_value_no_ub c fuel s : find_value (Some c) fuel s <> UB.
Proof.
  unfold find_value, find_list, find_object, find_null.
  destruct (peek (Some c) s) as [x| | |] eqn:Ep; [|destruct s; discriminate..]. cbn [obind].
  destruct (x =? list_open)%N; [pose proof (nested_loop_no_ub (Some c) fuel list_close (tl s)); destruct (nested_loop _ _ _ _); discriminate || congruence|].
  destruct (x =? object_open)%N; [pose proof (nested_loop_no_ub (Some c) fuel object_close (tl s)); destruct (nested_loop _ _ _ _); discriminate || congruence|].
  destruct (x =? quote)%N; [apply find_string_no_ub|]. destruct (x =? 110)%N; [|discriminate].
  destruct (slice s 0 4) as [v|]; [|discriminate]. destruct (same_bytes v _); discriminate.
Qed.
Lemma members_loop_no_ub c : forall fuel m s, members_loop (Some c) fuel m s <> UB.
Proof.
  induction fuel as [|fuel IH]; intros m s; [discriminate|]. cbn [members_loop].
  destruct s as [|x s0]; [discriminate|]. destruct (x =? object_close)%N; [discriminate|].
  set (s := x :: s0). clearbody s.
  pose proof (find_string_no_ub c (skip_whitespace s)) as H1.
  destruct (find_string _ (skip_whitespace s)) as [[k s2]| | |]; try discriminate; [|congruence]. cbn [obind].
  destruct (parse_char (skip_whitespace s2) colon) as [s4| | |] eqn:Ep; try discriminate.
  2:{ destruct (skip_whitespace s2) as [|y r]; cbn in Ep; [|destruct (y =? colon)%N]; discriminate. }
  cbn [obind].
  pose proof (find_value_no_ub c (S fuel) (skip_whitespace s4)) as H2.
  destruct (find_value _ (S fuel) (skip_whitespace s4)) as [[v s6]| | |]; try discriminate; [|congruence]. cbn [obind].
  destruct (member_code m k v) as [(m' & Em)|Em]; rewrite Em; [|discriminate]. cbn [obind].
  destruct (snd (skip_until [comma; object_close] s6)) as [|y s7]; cbn [peek obind]; apply IH.
Qed.
Lemma parse_char_no_ub s c : parse_char s c <> UB.
Proof. destruct s as [|x s]; cbn [parse_char]; [|destruct (x =? c)%N]; discriminate. Qed.
Lemma view_init_no_ub c fuel b : metadata_view_init (Some c) fuel b <> UB.
Proof.
  unfold metadata_view_init, parse_json. destruct b as [|c0 b0]; [discriminate|].
  pose proof (parse_char_no_ub (skip_whitespace (c0 :: b0)) object_open) as H.
  destruct (parse_char (skip_whitespace (c0 :: b0)) object_open) as [s| | |]; try discriminate; [|congruence]. cbn [obind].
  pose proof (members_loop_no_ub c fuel (Metadata EDGE_PLANAR CRS_NONE []) (skip_whitespace s)) as H1.
  destruct (members_loop (Some c) fuel _ _) as [[m s2]| | |]; try discriminate; [|congruence]. cbn [obind].
  pose proof (parse_char_no_ub s2 object_close) as H2.
  destruct (parse_char s2 object_close) as [s3| | |]; try discriminate; [|congruence]. cbn [obind]. destruct (skip_whitespace s3); discriminate.
Qed.

(** A text that is accepted is not read past its end. *)
Lemma view_init_inside c fuel b m : (length b < fuel)%nat -> metadata_view_init (Some c) fuel b = Ok m -> metadata_view_init None fuel b = Ok m.
Proof.
  intros Hf H. pose proof H as Ho. apply view_init_ok in Ho as [[-> ->]|(ms & m0 & Hl & _ & _)]; [reflexivity|].
  rewrite (view_init_loose _ fuel ms b Hl Hf) in H. rewrite (view_init_loose _ fuel ms b Hl Hf). exact H.
Qed.

(** ** A NUL in an array *)
Lemma nul_in_array past fuel : metadata_view_init past fuel ($"{""a"":[" ++ [0%N]) = NoFuel.
Proof.
  destruct fuel as [|fuel]; [reflexivity|].
  assert (E : find_value past (S fuel) [91%N; 0%N] = NoFuel).
  { unfold find_value, find_list. cbn [peek obind tl]. change ((91 =? list_open)%N) with true. cbv iota.
    rewrite nested_loop_nul. reflexivity. }
  assert (M : forall m, members_loop past (S fuel) m [34; 97; 34; 58; 91; 0]%N = NoFuel).
  { intros m. cbn [members_loop]. change ((34 =? object_close)%N) with false. cbv iota.
    change (skip_whitespace [34; 97; 34; 58; 91; 0]%N) with ([34; 97; 34] ++ [58; 91; 0])%N.
    rewrite find_string_text by (exists [97%N]; split; [repeat constructor; discriminate | reflexivity]). cbn [obind].
    change (parse_char (skip_whitespace [58; 91; 0]%N) colon) with (Ok [91; 0]%N). cbn [obind].
    change (skip_whitespace [91; 0]%N) with [91; 0]%N. rewrite E. reflexivity. }
  unfold metadata_view_init, parse_json.
  change ($"{""a"":[" ++ [0%N]) with (123%N :: [34; 97; 34; 58; 91; 0]%N). cbv iota.
  change (parse_char (skip_whitespace (123%N :: [34; 97; 34; 58; 91; 0]%N)) object_open) with (Ok [34; 97; 34; 58; 91; 0]%N). cbn [obind].
  change (skip_whitespace [34; 97; 34; 58; 91; 0]%N) with [34; 97; 34; 58; 91; 0]%N. rewrite M. reflexivity.
Qed.
