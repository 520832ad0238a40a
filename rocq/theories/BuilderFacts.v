(** * Single operations on the buffers of a builder *)
From Verif Require Import Base BaseFacts TypesModel BufferModel BufferFacts CoordsModel BitmapModel BitmapProofs ArrowModel ArrayViewModel NativeSpec
  BuilderModel.
Local Open Scope Z_scope.

(** ** Lists *)
Lemma set_nth_length {A} i (x : A) l : length (set_nth i x l) = length l.
Proof. revert i; induction l as [|y l IH]; intros [|i]; cbn; auto. Qed.
Lemma nth_error_set_nth {A} i j (x : A) l :
  nth_error (set_nth i x l) j = if Nat.eqb i j then option_map (fun _ => x) (nth_error l j) else nth_error l j.
Proof. revert i j; induction l as [|y l IH]; intros [|i] [|j]; cbn; try reflexivity. - destruct (Nat.eqb i j); reflexivity. - apply IH. Qed.
Lemma nth_error_set_same {A} i (x y : A) l : nth_error l i = Some y -> nth_error (set_nth i x l) i = Some x.
Proof. intros H. rewrite nth_error_set_nth, Nat.eqb_refl, H. reflexivity. Qed.
Lemma nth_error_set_other {A} i j (x : A) l : i <> j -> nth_error (set_nth i x l) j = nth_error l j.
Proof. intros H. rewrite nth_error_set_nth. destruct (Nat.eqb_spec i j); [contradiction|reflexivity]. Qed.
Lemma set_nth_id {A} i (x : A) l : nth_error l i = Some x -> set_nth i x l = l.
Proof. revert i; induction l as [|y l IH]; intros [|i] H; cbn in *; try congruence. rewrite IH; auto. Qed.
Lemma set_nth_twice {A} i (x y : A) l : set_nth i x (set_nth i y l) = set_nth i x l.
Proof. revert i; induction l as [|z l IH]; intros [|i]; cbn; try reflexivity. rewrite IH. reflexivity. Qed.
Lemma in_set_nth {A} i (x y : A) l : In y (set_nth i x l) -> y = x \/ In y l.
Proof.
  revert i; induction l as [|z l IH]; intros [|i] H; cbn in *; try tauto.
  - destruct H; auto.
  - destruct H as [H|H]; [auto|]. apply IH in H as [H|H]; auto.
Qed.
Lemma map_set_nth {A B} (f : A -> B) i x l : map f (set_nth i x l) = set_nth i (f x) (map f l).
Proof. revert i; induction l as [|z l IH]; intros [|i]; cbn; try reflexivity. rewrite IH. reflexivity. Qed.
Lemma NoDup_set_nth {A} i (x : A) l : NoDup l -> ~ In x l -> NoDup (set_nth i x l).
Proof.
  revert i; induction l as [|z l IH]; intros [|i] Hn Hx; cbn; try constructor; inversion Hn; subst; auto.
  - intros H. apply Hx. right. exact H.
  - intros H. apply in_set_nth in H as [->|H]; [apply Hx; left; reflexivity|contradiction].
  - apply IH; [assumption|]. intros H. apply Hx. right. exact H.
Qed.

(** ** Well-formed builders *)
Definition ids_ok (bufs : list cbuf) (next : nat) : Prop :=
  NoDup (map bf_id bufs) /\ Forall (fun c => (2 <= bf_id c < next)%nat) bufs.
Definition mems_ok (bufs : list cbuf) : Prop := Forall (fun c => wf_bytes (w_mem (bf c))) bufs.
Definition good (b : builder) : Prop := ids_ok (bd_bufs b) (bd_next b) /\ mems_ok (bd_bufs b) /\ (2 <= bd_next b)%nat.

Lemma with_bufs_id b : with_bufs b (bd_bufs b) (bd_next b) = b.
Proof. destruct b; reflexivity. Qed.

Lemma get_buf_ok b i c : nth_error (bd_bufs b) i = Some c -> get_buf b (Z.of_nat i) = Ok c.
Proof.
  intros H. unfold get_buf. destruct (Z.ltb_spec (Z.of_nat i) 0); [lia|]. rewrite Nat2Z.id, H. reflexivity.
Qed.

Lemma ids_fresh bufs next i w : ids_ok bufs next -> ids_ok (set_nth i {| bf_id := next; bf := w |} bufs) (S next) \/ nth_error bufs i = None.
Proof.
  intros (Hn & Hf). left. split.
  - rewrite map_set_nth. apply NoDup_set_nth; [exact Hn|]. cbn [bf_id]. intros H. apply in_map_iff in H as (c & E & Hc).
    rewrite Forall_forall in Hf. specialize (Hf c Hc). lia.
  - rewrite Forall_forall in *. intros c Hc. pose proof Hc as Hc'. apply in_set_nth in Hc as [->|Hc].
    + cbn [bf_id]. destruct bufs as [|c0 bufs']; [exfalso; destruct i; exact Hc'|].
      specialize (Hf c0 (or_introl eq_refl)). lia.
    + specialize (Hf c Hc). lia.
Qed.

Lemma ids_same bufs next i c w : ids_ok bufs next -> nth_error bufs i = Some c -> ids_ok (set_nth i {| bf_id := bf_id c; bf := w |} bufs) next.
Proof.
  intros (Hn & Hf) Hc. split.
  - rewrite map_set_nth. cbn [bf_id]. rewrite set_nth_id; [exact Hn|]. rewrite nth_error_map, Hc. reflexivity.
  - rewrite Forall_forall in *. intros x Hx. apply in_set_nth in Hx as [->|Hx]; [|auto].
    cbn [bf_id]. apply (Hf c). eapply nth_error_In; eauto.
Qed.

Lemma mems_set bufs i c : mems_ok bufs -> wf_bytes (w_mem (bf c)) -> mems_ok (set_nth i c bufs).
Proof.
  unfold mems_ok. rewrite !Forall_forall. intros H Hc x Hx. apply in_set_nth in Hx as [->|Hx]; auto.
Qed.

(** The new capacity. *)
Definition new_capacity (size cap add : Z) : Z := if size + add <=? cap then cap else grow_by_factor cap (size + add).

Lemma new_capacity_ge size cap add : 0 <= cap -> size <= cap -> cap <= new_capacity size cap add /\ size + add <= new_capacity size cap add.
Proof.
  intros. unfold new_capacity, grow_by_factor. destruct (Z.leb_spec (size + add) cap); [lia|].
  destruct (Z.ltb_spec (size + add) (cap * 2)); lia.
Qed.

Section Junk.
  Variable junk : nat -> nat -> N.
  Hypothesis junk_bytes : forall i j, is_byte (junk i j).

  Lemma reserve_spec w add j : 0 <= w_size w <= w_cap w ->
    exists extra, wf_bytes extra /\ w_mem (wbuf_reserve (junk j) w add) = w_mem w ++ extra /\
      w_size (wbuf_reserve (junk j) w add) = w_size w /\
      w_cap (wbuf_reserve (junk j) w add) = new_capacity (w_size w) (w_cap w) add /\
      (w_cap (wbuf_reserve (junk j) w add) = w_cap w -> wbuf_reserve (junk j) w add = w).
  Proof.
    intros Hs. unfold wbuf_reserve, new_capacity. destruct (Z.leb_spec (w_size w + add) (w_cap w)).
    - exists []. split; [constructor|]. rewrite app_nil_r. auto.
    - set (g := grow_by_factor (w_cap w) (w_size w + add)).
      assert (w_cap w < g /\ w_size w + add <= g) as Hg.
      { unfold g, grow_by_factor. destruct (Z.ltb_spec (w_size w + add) (w_cap w * 2)); lia. }
      assert (w_cap {| w_mem := w_mem w ++ map (junk j) (seq (length (w_mem w)) (Z.to_nat g - length (w_mem w))); w_size := w_size w |} = g) as Hc.
      { unfold w_cap in *. cbn [w_mem]. rewrite app_length, map_length, seq_length. lia. }
      exists (map (junk j) (seq (length (w_mem w)) (Z.to_nat g - length (w_mem w)))). cbn [w_mem w_size].
      split; [|split; [reflexivity|split; [reflexivity|split; [exact Hc|]]]].
      + unfold wf_bytes. apply Forall_forall. intros x Hx. apply in_map_iff in Hx as (y & <- & _). apply junk_bytes.
      + intros E. rewrite Hc in E. lia.
  Qed.

  Lemma reserve_buffer_ok b i c add : good b -> nth_error (bd_bufs b) i = Some c -> 0 <= w_size (bf c) <= w_cap (bf c) ->
    exists c' next' extra, reserve_buffer junk b (Z.of_nat i) add = Ok (with_bufs b (set_nth i c' (bd_bufs b)) next') /\
      good (with_bufs b (set_nth i c' (bd_bufs b)) next') /\ w_size (bf c') = w_size (bf c) /\
      w_mem (bf c') = w_mem (bf c) ++ extra /\ w_cap (bf c') = new_capacity (w_size (bf c)) (w_cap (bf c)) add.
  Proof.
    intros (Hi & Hm & Hn) Hc Hs. unfold reserve_buffer. rewrite (get_buf_ok _ _ _ Hc). cbn [obind].
    destruct (reserve_spec (bf c) add (bd_next b) Hs) as (extra & We & Em & Es & Ec & Eq).
    destruct (Z.eqb_spec (w_cap (wbuf_reserve (junk (bd_next b)) (bf c) add)) (w_cap (bf c))) as [E|E].
    - exists c, (bd_next b), []. rewrite set_nth_id by exact Hc. rewrite with_bufs_id. rewrite app_nil_r.
      split; [reflexivity|]. split; [split; auto|]. split; [reflexivity|]. split; [reflexivity|]. congruence.
    - exists {| bf_id := bd_next b; bf := wbuf_reserve (junk (bd_next b)) (bf c) add |}, (S (bd_next b)), extra.
      rewrite Nat2Z.id. split; [reflexivity|]. cbn [bf]. split; [|auto]. split; [|split]; cbn [bd_bufs bd_next with_bufs].
      + destruct (ids_fresh _ _ i (wbuf_reserve (junk (bd_next b)) (bf c) add) Hi) as [H|H]; [exact H|congruence].
      + apply mems_set; [exact Hm|]. cbn [bf]. rewrite Em. apply wf_bytes_app. split; [|exact We].
        unfold mems_ok in Hm. rewrite Forall_forall in Hm. apply Hm. eapply nth_error_In; eauto.
      + lia.
  Qed.

  (** A buffer used by appending bytes. *)
  Definition has_data (c : cbuf) (bs : bytes) : Prop :=
    w_size (bf c) = Z.of_nat (length bs) /\ exists rest, w_mem (bf c) = bs ++ rest.

  Lemma has_data_cap c bs : has_data c bs -> 0 <= w_size (bf c) <= w_cap (bf c).
  Proof. intros (Hs & rest & Hm). unfold w_cap. rewrite Hm, app_length, Hs. lia. Qed.

  Lemma append_unsafe_ok b i c bs add : good b -> nth_error (bd_bufs b) i = Some c -> has_data c bs -> wf_bytes add ->
    Z.of_nat (length bs) + Z.of_nat (length add) <= w_cap (bf c) ->
    exists c', append_buffer_unsafe b (Z.of_nat i) add = Ok (with_bufs b (set_nth i c' (bd_bufs b)) (bd_next b)) /\
      good (with_bufs b (set_nth i c' (bd_bufs b)) (bd_next b)) /\ has_data c' (bs ++ add) /\ w_cap (bf c') = w_cap (bf c).
  Proof.
    intros (Hi & Hm & Hn) Hc (Hs & rest & Em) Wa Hr. unfold append_buffer_unsafe. rewrite (get_buf_ok _ _ _ Hc). cbn [obind].
    unfold w_cap in Hr. rewrite Em, app_length in Hr.
    rewrite <- (firstn_skipn (length add) rest) in Em.
    unfold upd_bytes. rewrite Hs, Em, patch_at by (rewrite firstn_length; lia). cbn [or_ub obind].
    unfold set_buf. rewrite Nat2Z.id.
    assert (wf_bytes (w_mem (bf c))) as Wc.
    { unfold mems_ok in Hm. rewrite Forall_forall in Hm. apply Hm. eapply nth_error_In; eauto. }
    rewrite Em, !wf_bytes_app in Wc.
    eexists. split; [reflexivity|]. split; [|split].
    - split; [|split]; cbn [bd_bufs bd_next with_bufs]; [apply ids_same; assumption| |exact Hn].
      apply mems_set; [exact Hm|]. cbn [bf w_mem]. rewrite !wf_bytes_app. tauto.
    - split; cbn [bf w_size w_mem]; [rewrite app_length; lia|].
      exists (skipn (length add) rest). rewrite <- app_assoc. reflexivity.
    - unfold w_cap. cbn [bf w_mem]. rewrite Em, !app_length, firstn_length. lia.
  Qed.

  Lemma append_buffer_ok b i c bs add : good b -> nth_error (bd_bufs b) i = Some c -> has_data c bs -> wf_bytes add ->
    exists c' next', append_buffer junk b (Z.of_nat i) add = Ok (with_bufs b (set_nth i c' (bd_bufs b)) next') /\
      good (with_bufs b (set_nth i c' (bd_bufs b)) next') /\ has_data c' (bs ++ add) /\
      w_cap (bf c') = new_capacity (w_size (bf c)) (w_cap (bf c)) (Z.of_nat (length add)).
  Proof.
    intros Hg Hc Hd Wa. unfold append_buffer. rewrite (get_buf_ok _ _ _ Hc). cbn [obind]. pose proof Hd as (Hs & rest & Em).
    destruct (Z.leb_spec (w_size (bf c) + Z.of_nat (length add)) (w_cap (bf c))) as [Hle|Hle]; cbn [obind].
    - destruct (append_unsafe_ok b i c bs add Hg Hc Hd Wa ltac:(lia)) as (c' & E & G & D & W). exists c', (bd_next b).
      split; [exact E|]. split; [exact G|]. split; [exact D|]. unfold new_capacity. apply Z.leb_le in Hle. rewrite Hle. exact W.
    - destruct (reserve_buffer_ok b i c (Z.of_nat (length add)) Hg Hc (has_data_cap _ _ Hd))
        as (c1 & next & extra & E1 & G1 & S1 & M1 & C1). rewrite E1. cbn [obind].
      pose proof (new_capacity_ge _ _ (Z.of_nat (length add)) (Zle_0_nat (length (w_mem (bf c)))) (proj2 (has_data_cap _ _ Hd))) as (_ & N2).
      fold (w_cap (bf c)) in N2. rewrite <- C1 in N2.
      destruct (append_unsafe_ok _ i c1 bs add G1) as (c2 & E2 & G2 & D2 & W2).
      + cbn [bd_bufs with_bufs]. eapply nth_error_set_same; eauto.
      + split; [congruence|]. exists (rest ++ extra). rewrite M1, Em, app_assoc. reflexivity.
      + exact Wa.
      + lia.
      + cbn [bd_bufs with_bufs bd_next] in *. rewrite set_nth_twice in *. exists c2, next. split; [exact E2|]. split; [exact G2|].
        split; [exact D2|]. rewrite W2. exact C1.
  Qed.

  Definition offset_bytes (v : Z) : bytes := le_bytes 4 (Z.to_N (v mod 4294967296)).

  Lemma offset_append_ok b i c bs v : good b -> nth_error (bd_bufs b) (S i) = Some c -> has_data c bs ->
    (Z.of_nat (length bs)) mod 4 = 0 ->
    exists c' next', offset_append junk b (Z.of_nat i) v = Ok (with_bufs b (set_nth (S i) c' (bd_bufs b)) next') /\
      good (with_bufs b (set_nth (S i) c' (bd_bufs b)) next') /\ has_data c' (bs ++ offset_bytes v).
  Proof.
    intros Hg Hc Hd H4. unfold offset_append. replace (Z.of_nat i + 1) with (Z.of_nat (S i)) by lia.
    rewrite (get_buf_ok _ _ _ Hc). cbn [obind]. pose proof Hd as (Hs & rest & Em).
    assert (wf_bytes (offset_bytes v)) as Wa by apply le_bytes_wf.
    assert (length (offset_bytes v) = 4%nat) as La by apply le_bytes_length.
    pose proof (has_data_cap _ _ Hd) as Hcap.
    destruct (Z.leb_spec (w_size (bf c) / 4 + 1) (w_cap (bf c) / 4)) as [H|H]; cbn [obind].
    - destruct (append_unsafe_ok b (S i) c bs (offset_bytes v) Hg Hc Hd Wa) as (c' & E & G & D & _); [|eauto].
      rewrite La. rewrite Hs in H. pose proof (Z.div_mod (Z.of_nat (length bs)) 4 ltac:(lia)).
      pose proof (Z.mul_div_le (w_cap (bf c)) 4 ltac:(lia)). lia.
    - destruct (reserve_buffer_ok b (S i) c 4 Hg Hc (has_data_cap _ _ Hd))
        as (c1 & next & extra & E1 & G1 & S1 & M1 & C1). rewrite E1. cbn [obind].
      pose proof (new_capacity_ge _ _ 4 (Zle_0_nat (length (w_mem (bf c)))) (proj2 (has_data_cap _ _ Hd))) as (_ & N2).
      fold (w_cap (bf c)) in N2. rewrite <- C1 in N2.
      destruct (append_unsafe_ok _ (S i) c1 bs (offset_bytes v) G1) as (c2 & E2 & G2 & D2 & _).
      + cbn [bd_bufs with_bufs]. eapply nth_error_set_same; eauto.
      + split; [congruence|]. exists (rest ++ extra). rewrite M1, Em, app_assoc. reflexivity.
      + exact Wa.
      + rewrite La. lia.
      + cbn [bd_bufs with_bufs bd_next] in *. rewrite set_nth_twice in *. exists c2, next. split; [exact E2|]. split; assumption.
  Qed.
End Junk.
