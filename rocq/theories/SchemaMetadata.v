(** * Proofs about the key-value metadata of schemas *)
From Verif Require Import Base BaseFacts Text BufferModel MetadataModel MetadataProofs SchemaModel SchemaSpec.
Local Open Scope Z_scope.

Lemma same_text_eq a b : same_text a b = true <-> a = b.
Proof. unfold same_text. destruct (list_eq_dec N.eq_dec a b); intuition congruence. Qed.
Lemma same_bytes_eq a b : same_bytes a b = true <-> a = b.
Proof. rewrite same_bytes_same. apply same_eq. Qed.
Lemma same_bytes_text a b : same_bytes a b = same_text b a.
Proof.
  destruct (same_bytes a b) eqn:E.
  - apply same_bytes_eq in E. subst. symmetry. apply same_text_eq. reflexivity.
  - destruct (same_text b a) eqn:F; [|reflexivity]. apply same_text_eq in F. subst.
    assert (same_bytes a a = true) as H by (apply same_bytes_eq; reflexivity). congruence.
Qed.
Lemma same_bytes_neq a b : a <> b -> same_bytes a b = false.
Proof. intros H. destruct (same_bytes a b) eqn:E; [apply same_bytes_eq in E; contradiction | reflexivity]. Qed.
Lemma same_bytes_refl a : same_bytes a a = true.
Proof. apply same_bytes_eq. reflexivity. Qed.

Lemma to_int32_short z : 0 <= z < 2147483648 -> to_int32 z = z.
Proof. intros H. unfold to_int32. rewrite Z.mod_small by lia. lia. Qed.

Lemma read_number pre n post p : Z.of_N n < 2147483648 -> p = Z.of_nat (length pre) ->
  read_int32 (pre ++ le_bytes 4 n ++ post) p = Ok (Z.of_N n).
Proof.
  intros Hn ->. unfold read_int32. rewrite slice_app_at by apply le_bytes_length. cbn [or_ub obind].
  rewrite le_val_bytes by (change (256 ^ N.of_nat 4)%N with 4294967296%N; lia).
  rewrite to_int32_short by lia. reflexivity.
Qed.
Lemma text32_length b : length (text32 b) = (4 + length b)%nat.
Proof. unfold text32. rewrite app_length, le_bytes_length. reflexivity. Qed.
Lemma entry_length e : length (entry_bytes e) = (8 + length (fst e) + length (snd e))%nat.
Proof. unfold entry_bytes. rewrite app_length, !text32_length. lia. Qed.

(** Reading an entry. *)
Lemma read_entry pre k v post : short k -> short v ->
  let b := pre ++ entry_bytes (k, v) ++ post in
  exists kv vv, reader_read b (Z.of_nat (length pre)) = Ok (kv, vv, Z.of_nat (length (pre ++ entry_bytes (k, v)))) /\
    sv_bytes kv = Some k /\ sv_size kv = Z.of_nat (length k) /\ sv_bytes vv = Some v /\ sv_size vv = Z.of_nat (length v).
Proof.
  intros Hk Hv b. unfold short in Hk, Hv. unfold reader_read.
  assert (E1 : b = pre ++ le_bytes 4 (N.of_nat (length k)) ++ (k ++ text32 v ++ post)).
  { subst b. unfold entry_bytes, text32. cbn [fst snd]. rewrite <- !app_assoc. reflexivity. }
  assert (E2 : b = (pre ++ text32 k) ++ le_bytes 4 (N.of_nat (length v)) ++ (v ++ post)).
  { subst b. unfold entry_bytes, text32. cbn [fst snd]. rewrite <- !app_assoc. reflexivity. }
  assert (E3 : b = (pre ++ le_bytes 4 (N.of_nat (length k))) ++ k ++ (text32 v ++ post)).
  { rewrite E1, <- !app_assoc. reflexivity. }
  assert (E4 : b = (pre ++ text32 k ++ le_bytes 4 (N.of_nat (length v))) ++ v ++ post).
  { rewrite E2, <- !app_assoc. reflexivity. }
  assert (R1 : read_int32 b (Z.of_nat (length pre)) = Ok (Z.of_nat (length k))).
  { rewrite E1, read_number by (try reflexivity; lia). f_equal. lia. }
  assert (R2 : read_int32 b (Z.of_nat (length pre) + 4 + Z.of_nat (length k)) = Ok (Z.of_nat (length v))).
  { rewrite E2, read_number by (try (rewrite app_length, text32_length); lia). f_equal. lia. }
  rewrite R1. cbn [obind]. rewrite R2. cbn [obind].
  eexists _, _. split; [do 3 f_equal; rewrite app_length, entry_length; cbn [fst snd]; lia|].
  cbn [sv_size]. unfold sv_bytes. cbn [sv_size sv_memory sv_offset].
  destruct (Z.ltb_spec (Z.of_nat (length k)) 0); [lia|]. destruct (Z.ltb_spec (Z.of_nat (length v)) 0); [lia|].
  rewrite !Nat2Z.id. repeat split.
  - rewrite E3 at 1. replace (Z.of_nat (length pre) + 4) with (Z.of_nat (length (pre ++ le_bytes 4 (N.of_nat (length k)))))
      by (rewrite app_length, le_bytes_length; lia). apply slice_app_at. reflexivity.
  - rewrite E4 at 1. replace (Z.of_nat (length pre) + 4 + Z.of_nat (length k) + 4)
      with (Z.of_nat (length (pre ++ text32 k ++ le_bytes 4 (N.of_nat (length v)))))
      by (rewrite !app_length, le_bytes_length, text32_length; lia). apply slice_app_at. reflexivity.
Qed.

Lemma key_equal_same key v k : sv_bytes v = Some k -> sv_size v = Z.of_nat (length k) ->
  key_equal key v = Ok (same_text k key).
Proof.
  intros Hb Hs. unfold key_equal. rewrite Hs. destruct (Z.eqb_spec (Z.of_nat (length k)) (Z.of_nat (length key))) as [E|E].
  - rewrite Hb. cbn [or_ub obind]. rewrite same_bytes_text. reflexivity.
  - f_equal. symmetry. destruct (same_text k key) eqn:F; [|reflexivity]. apply same_text_eq in F. subst. contradiction.
Qed.

(** A header. *)
Lemma reader_init_some es rest : short es -> reader_init (Some (metadata_bytes es ++ rest)) = Ok (Z.of_nat (length es), 4).
Proof.
  unfold short. intros H. unfold reader_init, metadata_bytes. rewrite <- app_assoc.
  pose proof (read_number [] (N.of_nat (length es)) (flat_map entry_bytes es ++ rest) 0 ltac:(lia) eq_refl) as R. cbn [app] in R.
  rewrite R. cbn [obind]. do 2 f_equal. lia.
Qed.

(** ** Looking up a value *)
Lemma get_value_loop_spec key es : forall pre rest, Forall (fun e => short (fst e) /\ short (snd e)) es ->
  exists r, get_value_loop (pre ++ flat_map entry_bytes es ++ rest) key (length es) (Z.of_nat (length pre)) = Ok r /\
    match value_of key es with
    | None => r = None
    | Some v => exists w, r = Some w /\ sv_bytes w = Some v /\ sv_size w = Z.of_nat (length v)
    end.
Proof.
  induction es as [|[k v] es IH]; intros pre rest H; cbn [length get_value_loop].
  { eexists; split; reflexivity. }
  inversion H as [|? ? [Hk Hv] Hes]; subst. cbn [fst snd] in Hk, Hv.
  cbn [flat_map]. rewrite <- app_assoc.
  destruct (read_entry pre k v (flat_map entry_bytes es ++ rest) Hk Hv) as (kv & vv & -> & Bk & Sk & Bv & Sv). cbn [obind].
  rewrite (key_equal_same key kv k Bk Sk). cbn [obind].
  unfold value_of. cbn [find fst].
  destruct (same_text k key) eqn:E.
  - eexists; split; [reflexivity|]. cbn [option_map snd]. eexists; repeat split; eassumption.
  - rewrite (app_assoc pre). apply IH. exact Hes.
Qed.
Lemma get_value_spec md es key : holds md es ->
  exists r, get_value md key = Ok r /\
    match value_of key es with
    | None => r = None
    | Some v => exists w, r = Some w /\ sv_bytes w = Some v /\ sv_size w = Z.of_nat (length v)
    end.
Proof.
  intros [[Hl Hf] H]. destruct md as [b|].
  - destruct H as [rest ->]. unfold get_value. rewrite reader_init_some by exact Hl. cbn [obind]. rewrite Nat2Z.id.
    unfold metadata_bytes. rewrite <- app_assoc.
    pose proof (get_value_loop_spec key es (le_bytes 4 (N.of_nat (length es))) rest Hf) as G.
    rewrite le_bytes_length in G. exact G.
  - subst es. eexists; split; reflexivity.
Qed.

(** ** Sizes and copies *)
Lemma size_of_loop_spec es : forall pre rest size, Forall (fun e => short (fst e) /\ short (snd e)) es ->
  size_of_loop (pre ++ flat_map entry_bytes es ++ rest) (length es) (Z.of_nat (length pre)) size =
  Ok (size + Z.of_nat (length (flat_map entry_bytes es))).
Proof.
  induction es as [|[k v] es IH]; intros pre rest size H; cbn [length size_of_loop].
  { cbn [flat_map length]. f_equal. lia. }
  inversion H as [|? ? [Hk Hv] Hes]; subst. cbn [fst snd] in Hk, Hv.
  cbn [flat_map]. rewrite <- app_assoc.
  destruct (read_entry pre k v (flat_map entry_bytes es ++ rest) Hk Hv) as (kv & vv & -> & Bk & Sk & Bv & Sv). cbn [obind].
  rewrite (app_assoc pre), IH by exact Hes. f_equal. rewrite Sk, Sv, (app_length (entry_bytes _)), entry_length. cbn [fst snd]. lia.
Qed.
Lemma metadata_length es : length (metadata_bytes es) = (4 + length (flat_map entry_bytes es))%nat.
Proof. unfold metadata_bytes. rewrite app_length, le_bytes_length. reflexivity. Qed.
Lemma size_of_some es rest : fits es ->
  metadata_size_of (Some (metadata_bytes es ++ rest)) = Ok (Z.of_nat (length (metadata_bytes es))).
Proof.
  intros [Hl Hf]. unfold metadata_size_of. rewrite reader_init_some by exact Hl. cbn [obind]. rewrite Nat2Z.id.
  pose proof (size_of_loop_spec es (le_bytes 4 (N.of_nat (length es))) rest 4 Hf) as G. rewrite le_bytes_length in G.
  rewrite metadata_length. unfold metadata_bytes. rewrite <- app_assoc. refine (eq_trans G _). f_equal. lia.
Qed.
Lemma copied es rest : slice (metadata_bytes es ++ rest) 0 (Z.to_nat (Z.of_nat (length (metadata_bytes es)))) = Some (metadata_bytes es).
Proof. rewrite Nat2Z.id. apply (slice_app_at [] (metadata_bytes es) rest). reflexivity. Qed.

Lemma builder_init_spec md es : holds md es ->
  exists b, builder_init md = Ok b /\ (b = metadata_bytes es \/ b = [] /\ es = []).
Proof.
  intros [Hf H]. destruct md as [m|].
  - destruct H as [rest ->]. unfold builder_init. rewrite size_of_some by exact Hf. cbn [obind].
    destruct (Z.ltb_spec (Z.of_nat (length (metadata_bytes es))) 0); [lia|]. rewrite copied. cbn [or_ub]. eauto.
  - subst. eexists; split; [reflexivity|]. right. split; reflexivity.
Qed.

(** ** Appending *)
Lemma flat_map_snoc (es : list (bytes * bytes)) e : flat_map entry_bytes (es ++ [e]) = flat_map entry_bytes es ++ entry_bytes e.
Proof. rewrite flat_map_app. cbn [flat_map]. rewrite app_nil_r. reflexivity. Qed.
Lemma write_number n : 0 <= n < 2147483648 -> write_int32 n = le_bytes 4 (Z.to_N n).
Proof. intros H. unfold write_int32. rewrite Z.mod_small by lia. reflexivity. Qed.

Lemma append_entry b es k v :
  (b = metadata_bytes es \/ b = [] /\ es = []) -> Z.of_nat (length es) < 2147483647 -> short k -> short v ->
  builder_append b k (Some v) = Ok (metadata_bytes (es ++ [(k, v)])).
Proof.
  unfold short. intros Hb Hl Hk Hv. unfold builder_append.
  set (b' := match b with [] => write_int32 0 | _ => b end).
  assert (Eb : b' = metadata_bytes es).
  { subst b'. destruct Hb as [->|[-> ->]]; [|reflexivity].
    assert (length (metadata_bytes es) <> 0%nat) by (rewrite metadata_length; lia).
    destruct (metadata_bytes es); [contradiction | reflexivity]. }
  rewrite Eb. clear b' Eb Hb.
  pose proof (read_number [] (N.of_nat (length es)) (flat_map entry_bytes es) 0 ltac:(lia) eq_refl) as R. cbn [app] in R.
  change (le_bytes 4 (N.of_nat (length es)) ++ flat_map entry_bytes es) with (metadata_bytes es) in R. rewrite R. cbn [obind].
  destruct (Z.ltb_spec 2147483647 (Z.of_nat (length k))); [lia|].
  destruct (Z.ltb_spec 2147483647 (Z.of_nat (length v))); [lia|].
  destruct (Z.eqb_spec (Z.of_N (N.of_nat (length es))) 2147483647); [lia|]. cbn [orb].
  f_equal. rewrite !write_number by lia.
  unfold metadata_bytes at 1. rewrite <- app_assoc.
  rewrite skipn_app, skipn_all2, le_bytes_length by (rewrite le_bytes_length; lia). cbn [Nat.sub skipn app].
  unfold metadata_bytes. rewrite flat_map_snoc. unfold entry_bytes at 3, text32. cbn [fst snd].
  rewrite app_length. cbn [length].
  replace (Z.to_N (Z.of_N (N.of_nat (length es)) + 1)) with (N.of_nat (length es + 1)) by lia.
  replace (Z.to_N (Z.of_nat (length k))) with (N.of_nat (length k)) by lia.
  replace (Z.to_N (Z.of_nat (length v))) with (N.of_nat (length v)) by lia.
  rewrite <- !app_assoc. reflexivity.
Qed.

(** ** Setting *)
Fixpoint replaced (key : bytes) (value : option bytes) (es : list (bytes * bytes)) : list (bytes * bytes) :=
  match es with
  | [] => []
  | (k, v) :: es =>
      if same_text k key then match value with Some w => [(key, w)] | None => [] end ++ replaced key None es
      else (k, v) :: replaced key value es
  end.
Lemma replaced_length key value es : (length (replaced key value es) <= length es)%nat.
Proof.
  revert value. induction es as [|[k v] es IH]; intros value; cbn [replaced length]; [lia|].
  destruct (same_text k key).
  - rewrite app_length. specialize (IH None). destruct value; cbn [length]; lia.
  - cbn [length]. specialize (IH value). lia.
Qed.

Lemma set_loop key es : forall pre rest value b done,
  Forall (fun e => short (fst e) /\ short (snd e)) es -> short key -> (forall w, value = Some w -> short w) ->
  (b = metadata_bytes done \/ b = [] /\ done = []) -> Z.of_nat (length done + length es) < 2147483648 ->
  exists b', builder_set_loop (pre ++ flat_map entry_bytes es ++ rest) key (length es) (Z.of_nat (length pre)) value b = Ok b' /\
    (b' = metadata_bytes (done ++ replaced key value es) \/ b' = [] /\ done ++ replaced key value es = []).
Proof.
  induction es as [|[k v] es IH]; intros pre rest value b done H Hkey Hval Hb Hl; cbn [length builder_set_loop].
  { cbn [replaced]. rewrite app_nil_r. eauto. }
  inversion H as [|? ? [Hk Hv] Hes]; subst. cbn [fst snd] in Hk, Hv. cbn [length] in Hl.
  cbn [flat_map]. rewrite <- app_assoc.
  destruct (read_entry pre k v (flat_map entry_bytes es ++ rest) Hk Hv) as (kv & vv & -> & Bk & Sk & Bv & Sv). cbn [obind].
  rewrite (key_equal_same key kv k Bk Sk). cbn [obind replaced].
  destruct (same_text k key) eqn:E.
  - destruct value as [w|].
    + rewrite (append_entry b done key w Hb ltac:(lia) Hkey (Hval w eq_refl)). cbn [obind].
      rewrite (app_assoc pre).
      destruct (IH (pre ++ entry_bytes (k, v)) rest None (metadata_bytes (done ++ [(key, w)])) (done ++ [(key, w)]) Hes Hkey) as (b' & E' & HB).
      { discriminate. } { left. reflexivity. } { rewrite app_length. cbn [length]. lia. }
      exists b'. split; [exact E'|]. rewrite <- app_assoc in HB. exact HB.
    + cbn [builder_append obind app]. rewrite (app_assoc pre).
      apply IH; try assumption; try discriminate. lia.
  - rewrite Bk, Bv. cbn [or_ub obind].
    pose proof (append_entry b done k v Hb ltac:(lia) Hk Hv) as A. unfold bytes, byte in *. rewrite A. cbn [obind]. rewrite (app_assoc pre).
    destruct (IH (pre ++ entry_bytes (k, v)) rest value (metadata_bytes (done ++ [(k, v)])) (done ++ [(k, v)]) Hes Hkey Hval) as (b' & E' & HB).
    { left. reflexivity. } { rewrite app_length. cbn [length]. lia. }
    exists b'. split; [exact E'|]. rewrite <- app_assoc in HB. exact HB.
Qed.

(** The entries after setting a key. *)
Definition set_entries (key value : bytes) (es : list (bytes * bytes)) : list (bytes * bytes) :=
  match value_of key es with
  | None => es ++ [(key, value)]
  | Some _ => replaced key (Some value) es
  end.

Lemma value_of_none key es : value_of key es = None -> forall e, In e es -> same_text (fst e) key = false.
Proof.
  unfold value_of. intros H e Hin. destruct (find _ es) eqn:E; [discriminate|].
  exact (find_none _ _ E e Hin).
Qed.
Lemma filter_all {A} (f : A -> bool) l : (forall x, In x l -> f x = true) -> filter f l = l.
Proof.
  induction l as [|a l IH]; intros H; [reflexivity|]. cbn [filter]. rewrite (H a (or_introl eq_refl)).
  f_equal. apply IH. intros x Hx. apply H. right. exact Hx.
Qed.
Lemma replaced_others key value es : others key (replaced key value es) = others key es.
Proof.
  unfold others. revert value. induction es as [|[k v] es IH]; intros value; cbn [replaced filter fst]; [reflexivity|].
  destruct (same_text k key) eqn:E; cbn [negb].
  - rewrite filter_app, IH. destruct value; cbn [filter fst app]; [|reflexivity].
    assert (same_text key key = true) as -> by (apply same_text_eq; reflexivity). reflexivity.
  - cbn [filter fst]. rewrite E. cbn [negb]. f_equal. apply IH.
Qed.
Lemma replaced_none_no_key key es : forall e, In e (replaced key None es) -> same_text (fst e) key = false.
Proof.
  induction es as [|[k v] es IH]; cbn [replaced]; intros e He; [destruct He|].
  destruct (same_text k key) eqn:E; [apply IH; exact He|].
  destruct He as [<-|He]; [exact E | apply IH; exact He].
Qed.
Lemma filter_none {A} (f : A -> bool) l : (forall x, In x l -> f x = false) -> filter f l = [].
Proof.
  induction l as [|a l IH]; intros H; [reflexivity|]. cbn [filter]. rewrite (H a (or_introl eq_refl)).
  apply IH. intros x Hx. apply H. right. exact Hx.
Qed.
Lemma replaced_key key w es : value_of key es <> None ->
  filter (fun e => same_text (fst e) key) (replaced key (Some w) es) = [(key, w)].
Proof.
  unfold value_of. induction es as [|[k v] es IH]; cbn [find fst]; intros H; [contradiction H; reflexivity|].
  cbn [replaced]. destruct (same_text k key) eqn:E.
  - cbn [app filter fst]. assert (same_text key key = true) as -> by (apply same_text_eq; reflexivity).
    f_equal. apply filter_none. apply replaced_none_no_key.
  - cbn [filter fst]. rewrite E. apply IH. exact H.
Qed.
Lemma set_entries_others key value es : others key (set_entries key value es) = others key es.
Proof.
  unfold set_entries. destruct (value_of key es); [apply replaced_others|].
  unfold others. rewrite filter_app. cbn [filter fst].
  assert (same_text key key = true) as -> by (apply same_text_eq; reflexivity). cbn [negb]. apply app_nil_r.
Qed.
Lemma set_entries_key key value es : filter (fun e => same_text (fst e) key) (set_entries key value es) = [(key, value)].
Proof.
  unfold set_entries. destruct (value_of key es) eqn:E; [apply replaced_key; congruence|].
  rewrite filter_app. rewrite filter_none by (apply value_of_none; exact E). cbn [app filter fst].
  assert (same_text key key = true) as -> by (apply same_text_eq; reflexivity). reflexivity.
Qed.
Lemma find_filter {A} (f : A -> bool) l : find f l = hd_error (filter f l).
Proof. induction l as [|a l IH]; [reflexivity|]. cbn [find filter]. destruct (f a); [reflexivity | exact IH]. Qed.
Lemma set_entries_value key value es : value_of key (set_entries key value es) = Some value.
Proof. unfold value_of. rewrite find_filter, set_entries_key. reflexivity. Qed.
Lemma value_of_others key key' es : key <> key' -> value_of key' (others key es) = value_of key' es.
Proof.
  intros Hn. unfold value_of, others. f_equal. induction es as [|[k v] es IH]; [reflexivity|].
  cbn [filter find fst]. destruct (same_text k key) eqn:E; cbn [negb].
  - apply same_text_eq in E. subst k. destruct (same_text key key') eqn:F; [apply same_text_eq in F; contradiction | exact IH].
  - cbn [find fst]. destruct (same_text k key'); [reflexivity | exact IH].
Qed.

Lemma replaced_fits key w es : short key -> short w -> Forall (fun e => short (fst e) /\ short (snd e)) es ->
  forall value, value = None \/ value = Some w ->
  Forall (fun e : bytes * bytes => short (fst e) /\ short (snd e)) (replaced key value es).
Proof.
  intros Hk Hw H. induction H as [|[k v] es Hkv Hes IH]; intros value Hv; cbn [replaced]; [constructor|].
  destruct (same_text k key).
  - apply Forall_app. split; [|apply IH; left; reflexivity]. destruct Hv as [->| ->]; [constructor|].
    constructor; [split; assumption | constructor].
  - constructor; [exact Hkv | apply IH; exact Hv].
Qed.
Lemma set_entries_fits key value es : fits es -> Z.of_nat (length es) < 2147483647 -> short key -> short value ->
  fits (set_entries key value es).
Proof.
  intros [Hl Hf] Hn Hk Hv. unfold set_entries. destruct (value_of key es).
  - split; [pose proof (replaced_length key (Some value) es); unfold short, bytes, byte in *; lia|].
    apply (replaced_fits key value es Hk Hv Hf). right. reflexivity.
  - split; [unfold short; rewrite app_length; cbn [length]; lia|].
    apply Forall_app. split; [exact Hf|]. constructor; [split; assumption | constructor].
Qed.

Lemma builder_set_spec b es key value :
  (b = metadata_bytes es \/ b = [] /\ es = []) -> fits es -> Z.of_nat (length es) < 2147483647 -> short key -> short value ->
  builder_set b key value = Ok (metadata_bytes (set_entries key value es)).
Proof.
  intros Hb Hf Hn Hk Hv. unfold builder_set.
  assert (Hd : holds (buffer_data b) es).
  { split; [exact Hf|]. destruct Hb as [->|[-> ->]]; [|reflexivity].
    assert (length (metadata_bytes es) <> 0%nat) by (rewrite metadata_length; lia).
    unfold buffer_data. destruct (metadata_bytes es) eqn:E; [contradiction|]. rewrite <- E. exists []. rewrite app_nil_r. reflexivity. }
  destruct (get_value_spec _ _ key Hd) as (r & -> & Hr). cbn [obind]. unfold set_entries.
  destruct (value_of key es) eqn:Ev.
  - destruct Hr as (w & -> & _ & _).
    destruct Hb as [->|[-> ->]]; [|discriminate].
    assert (length (metadata_bytes es) <> 0%nat) by (rewrite metadata_length; lia).
    assert (buffer_data (metadata_bytes es) = Some (metadata_bytes es)) as ->.
    { unfold buffer_data. destruct (metadata_bytes es); [contradiction | reflexivity]. }
    pose proof (reader_init_some es [] (proj1 Hf)) as RI. rewrite app_nil_r in RI. unfold bytes, byte in *. rewrite RI. cbn [obind].
    rewrite Nat2Z.id.
    destruct (set_loop key es (le_bytes 4 (N.of_nat (length es))) [] (Some value) [] [] (proj2 Hf) Hk) as (b' & E' & HB).
    { intros w0 [= <-]. exact Hv. } { right. split; reflexivity. } { cbn [length]. lia. }
    rewrite le_bytes_length, app_nil_r in E'. change (Z.of_nat 4) with 4 in E'.
    change (metadata_bytes es) with (le_bytes 4 (N.of_nat (length es)) ++ flat_map entry_bytes es). rewrite E'.
    cbn [app] in HB. destruct HB as [->|[_ Hnil]]; [reflexivity|].
    pose proof (replaced_key key value es ltac:(congruence)) as RK. unfold bytes, byte in *. rewrite Hnil in RK. discriminate.
  - subst r. apply append_entry; assumption.
Qed.
