(** * Arrays built buffer by buffer *)
From Verif Require Import Base BaseFacts TypesModel TypesProofs GeomSpec BufferModel BufferFacts CoordsModel BitmapModel BitmapSpec BitmapProofs
  ArrowModel ArrayViewModel NativeSpec NativeProofs BuilderModel BuilderSpec BuilderRun BuilderFacts BuilderFinish.
Local Open Scope Z_scope.

Lemma combine_map_id {A B} (f : A * B -> B) : forall (l : list B) (is : list A), length is = length l ->
  (forall i x, In x l -> f (i, x) = x) -> map f (combine is l) = l.
Proof.
  induction l as [|x l IH]; intros [|i is] HL H; try discriminate; [reflexivity|]. cbn [combine map]. rewrite H by (left; reflexivity).
  f_equal. apply IH; [cbn in HL; lia|]. intros. apply H. right. assumption.
Qed.

Lemma NoDup_add_seq n : forall m s, NoDup (map (fun x => n + x)%nat (seq s m)).
Proof.
  induction m as [|m IH]; intros s; cbn [seq map]; constructor; [|apply IH]. intros H. apply in_map_iff in H as (x & Hx & Hi). apply in_seq in Hi. lia.
Qed.

(** Without appended coordinates the sizes stay. *)
Lemma sync_none b : bd_size b = 0 -> Forall (fun c => 0 <= w_size (bf c)) (bd_bufs b) -> sync_coord_sizes b = bd_bufs b.
Proof.
  intros Hs HF. unfold sync_coord_sizes. rewrite Hs. rewrite Forall_forall in HF.
  assert (forall c, In c (bd_bufs b) -> max_size c 0 = c) as Hm.
  { intros c Hc. unfold max_size. specialize (HF c Hc). destruct (Z.ltb_spec (w_size (bf c)) 0); [lia|reflexivity]. }
  change (0 * 8) with 0. rewrite Z.mul_0_l.
  destruct (bd_ctype b =? CT_INTERLEAVED); [|destruct (bd_ctype b =? CT_SEPARATE); [|reflexivity]].
  - apply combine_map_id; [apply seq_length|]. intros i x Hx. cbn [fst snd]. destruct (_ =? _); auto.
  - apply combine_map_id; [apply seq_length|]. intros i x Hx. cbn [fst snd]. destruct (_ && _); auto.
Qed.

Section Junk.
  Variable junk : nat -> nat -> N.
  Hypothesis junk_bytes : forall i j, is_byte (junk i j).

  (** A buffer with these bytes, NULL or not. *)
  Definition holds (c : cbuf) (bs : bytes) (alloc : bool) : Prop :=
    has_data c bs /\ (alloc = true <-> 0 < w_cap (bf c)).

  Record filling (t : array_kind) (code : Z) (b : builder) (content : nat -> bytes) (alloc : nat -> bool) : Prop := {
    fi_cfg : cfg code b;
    fi_good : good b;
    fi_len : length (bd_bufs b) = buffer_count t;
    fi_bufs : forall i c, nth_error (bd_bufs b) i = Some c -> holds c (content i) (alloc i);
    fi_size : bd_size b = 0
  }.

  Lemma set_filling t code b i c' next content alloc bs a : filling t code b content alloc ->
    good (with_bufs b (set_nth i c' (bd_bufs b)) next) -> holds c' bs a -> (i < buffer_count t)%nat ->
    filling t code (with_bufs b (set_nth i c' (bd_bufs b)) next)
      (fun j => if Nat.eqb j i then bs else content j) (fun j => if Nat.eqb j i then a else alloc j).
  Proof.
    intros [H1 H2 H3 H4 H5] Hg Hh Hi. constructor; cbn [bd_bufs bd_size with_bufs]; auto.
    - rewrite set_nth_length. exact H3.
    - intros j c Hc. rewrite nth_error_set_nth in Hc. destruct (Nat.eqb_spec j i) as [->|Hne].
      + destruct (Nat.eqb_spec i i); [|contradiction]. destruct (nth_error (bd_bufs b) i); [|discriminate]. injection Hc as <-. exact Hh.
      + destruct (Nat.eqb_spec i j); [congruence|]. auto.
  Qed.

  Lemma filling_ext t code b content alloc content' alloc' : filling t code b content alloc ->
    (forall j, content j = content' j) -> (forall j, alloc j = alloc' j) -> filling t code b content' alloc'.
  Proof. intros [H1 H2 H3 H4 H5] Hc Ha. constructor; auto. intros i c Hi. rewrite <- Hc, <- Ha. auto. Qed.

  Lemma run_op_ok t code b content alloc o : kind_ok t -> In code (type_codes t) -> filling t code b content alloc ->
    op_wf (buffer_count t) o -> exists b', run_op junk b o = Ok b' /\
      filling t code b' (fun j => op_bytes j (content j) o) (fun j => op_alloc j (alloc j) o).
  Proof.
    intros Hok Hin Hf (Hi & Hw). pose proof Hf as [H1 H2 H3 H4 H5].
    destruct (nth_error (bd_bufs b) (op_index o)) as [c|] eqn:Ec.
    2:{ apply nth_error_None in Ec. lia. }
    destruct (H4 _ _ Ec) as (Hd & Ha). pose proof (has_data_cap _ _ Hd) as Hcap.
    assert (forall add, 0 <= add -> (alloc (op_index o) || (0 <? add) = true <-> 0 < new_capacity (w_size (bf c)) (w_cap (bf c)) add)) as Hcp.
    { intros add Hadd. pose proof (new_capacity_ge (w_size (bf c)) (w_cap (bf c)) add ltac:(lia) ltac:(lia)).
      rewrite Bool.orb_true_iff, Ha, Z.ltb_lt. split; [lia|]. intros Hp. unfold new_capacity, grow_by_factor in *.
      destruct (Z.leb_spec (w_size (bf c) + add) (w_cap (bf c))); lia. }
    destruct o as [i bs|i n|i bs]; cbn [run_op op_index] in *.
    - destruct (append_buffer_ok junk junk_bytes b i c (content i) bs H2 Ec Hd Hw) as (c' & next & E & G & D & W).
      exists (with_bufs b (set_nth i c' (bd_bufs b)) next). split; [exact E|].
      eapply filling_ext; [apply set_filling with (content := content) (alloc := alloc) (bs := content i ++ bs) (a := alloc i || (0 <? blen bs)); auto|..].
      + split; [exact D|]. rewrite W. apply Hcp. lia.
      + intros j. cbn [op_bytes]. destruct (Nat.eqb_spec j i) as [->|]; reflexivity.
      + intros j. cbn [op_alloc]. destruct (Nat.eqb_spec j i) as [->|]; [|reflexivity]. f_equal. unfold blen. destruct bs; reflexivity.
    - destruct (reserve_buffer_ok junk junk_bytes b i c n H2 Ec Hcap) as (c' & next & extra & E & G & S' & M & W).
      exists (with_bufs b (set_nth i c' (bd_bufs b)) next). split; [exact E|].
      eapply filling_ext; [apply set_filling with (content := content) (alloc := alloc) (bs := content i) (a := alloc i || (0 <? n)); auto|..].
      + split; [|rewrite W; apply Hcp; exact Hw]. destruct Hd as (Hs & rest & Em). split; [congruence|]. exists (rest ++ extra). rewrite M, Em, app_assoc. reflexivity.
      + intros j. cbn [op_bytes]. destruct (Nat.eqb_spec j i) as [->|]; reflexivity.
      + intros j. cbn [op_alloc]. destruct (Nat.eqb_spec j i) as [->|]; reflexivity.
    - unfold set_owned_buffer. rewrite (cfg_count t code b Hok Hin H1).
      destruct (Z.ltb_spec (Z.of_nat i) 0); [lia|]. destruct (Z.leb_spec (Z.of_nat (buffer_count t)) (Z.of_nat i)); [lia|]. cbn [orb].
      rewrite (get_buf_ok _ _ _ Ec). cbn [obind]. rewrite Nat2Z.id. eexists. split; [reflexivity|].
      set (c' := {| bf_id := bd_next b; bf := _ |}).
      eapply filling_ext; [apply set_filling with (content := content) (alloc := alloc) (bs := bs) (a := negb (blen bs =? 0)); auto|..].
      + destruct H2 as (Hids & Hm & Hn). split; [|split]; cbn [bd_bufs bd_next with_bufs].
        * destruct (ids_fresh _ _ i (bf c') Hids) as [H'|H']; [exact H'|congruence].
        * apply mems_set; [exact Hm|exact Hw].
        * lia.
      + split; [split; [reflexivity|exists []; cbn; rewrite app_nil_r; reflexivity]|].
        cbn [c' bf]. unfold w_cap, blen. cbn [w_mem]. destruct bs; cbn; split; intros; try discriminate; try lia; reflexivity.
      + intros j. cbn [op_bytes]. destruct (Nat.eqb_spec j i) as [->|]; reflexivity.
      + intros j. cbn [op_alloc]. destruct (Nat.eqb_spec j i) as [->|]; reflexivity.
  Qed.

  Lemma run_ops_ok t code : kind_ok t -> In code (type_codes t) -> forall ops given b content alloc, filling t code b content alloc ->
    ops_wf (buffer_count t) given ops -> exists b', run_ops junk b ops = Ok b' /\
      filling t code b' (fun j => fold_left (op_bytes j) ops (content j)) (fun j => fold_left (op_alloc j) ops (alloc j)).
  Proof.
    intros Hok Hin. induction ops as [|o ops IH]; intros given b content alloc Hf Hw; cbn [run_ops fold_left]; [eauto|].
    cbn [ops_wf] in Hw. destruct Hw as (Ho & Hr). destruct (run_op_ok t code b content alloc o Hok Hin Hf Ho) as (b1 & E1 & F1). rewrite E1. cbn [obind].
    assert (exists g, ops_wf (buffer_count t) g ops) as (g & Hg) by (destruct o; [exists given; apply Hr|exists given; apply Hr|eauto]).
    apply (IH g b1 _ _ F1 Hg).
  Qed.

  Lemma fresh_filling t code b : kind_ok t -> In code (type_codes t) -> cfg code b -> (2 <= bd_next b)%nat -> forall b', builder_renew b = Ok b' ->
    filling t code b' (fun _ => []) (fun _ => false) /\ length (bd_values b') = (4 + length (skipn 4 (bd_values b)))%nat.
  Proof.
    intros Hok Hin Hc Hn b' Hr. rewrite (renew_ok t code b Hok Hin Hc) in Hr. injection Hr as <-.
    split; [|reflexivity].
    constructor; cbn [bd_bufs bd_size with_coord_view with_bufs]; auto.
    - split; [|split]; cbn [bd_bufs bd_next with_coord_view with_bufs].
      + split.
        * rewrite map_map. cbn [bf_id]. apply NoDup_add_seq.
        * apply Forall_forall. intros c Hx. apply in_map_iff in Hx as (i & <- & Hi). apply in_seq in Hi. cbn [bf_id]. lia.
      + apply Forall_forall. intros c Hx. apply in_map_iff in Hx as (i & <- & Hi). constructor.
      + lia.
    - rewrite map_length, seq_length. reflexivity.
    - intros i c Hi. rewrite nth_error_map in Hi. destruct (nth_error (seq 0 (buffer_count t)) i); [|discriminate]. injection Hi as <-.
      split; [split; [reflexivity|exists []; reflexivity]|]. split; [discriminate|intros H; discriminate H].
  Qed.

  Lemma has_data_data c bs : has_data c bs -> data (bf c) = bs.
  Proof.
    intros (Hs & rest & Hm). unfold data. rewrite Hs, Hm, Nat2Z.id, firstn_app, Nat.sub_diag, firstn_O, app_nil_r. apply firstn_all.
  Qed.

  Lemma holds_validity c bs a : holds c bs a -> validity_of (bf c) = if a then Some bs else None.
  Proof.
    intros (Hd & Ha). unfold validity_of, flush_buffer, w_null. rewrite <- (has_data_data c bs Hd). unfold data. unfold w_cap in Ha.
    destruct (w_mem (bf c)) eqn:E.
    - destruct a; [|reflexivity]. cbn in Ha. lia.
    - destruct a; [reflexivity|]. cbn in Ha. exfalso. destruct Ha as (_ & Ha). discriminate Ha. lia.
  Qed.

  Lemma map_nth_seq {A B} (f : A -> B) (g : nat -> B) : forall (l : list A) s, (forall i x, nth_error l i = Some x -> f x = g (s + i)%nat) ->
    map f l = map g (seq s (length l)).
  Proof.
    induction l as [|x l IH]; intros s H; [reflexivity|]. cbn [map length seq]. f_equal.
    - rewrite (H 0%nat x eq_refl). f_equal. lia.
    - apply IH. intros i y Hi. rewrite (H (S i) y Hi). f_equal. lia.
  Qed.

  Lemma finish_filling t code b content alloc : kind_ok t -> In code (type_codes t) -> filling t code b content alloc ->
    exists b', builder_renew b = Ok b' /\
      let v := if alloc 0%nat then Some (content 0%nat) else None in
      let bufs := map content (seq 1 (buffer_count t - 1)) in
      outcome_of (fits t v bufs) (assembled t v bufs, b') (builder_finish b).
  Proof.
    intros Hok Hin [H1 H2 H3 H4 H5].
    assert (Forall (fun c => sized (bf c)) (bd_bufs b)) as Hsz.
    { apply Forall_forall. intros c Hc. apply In_nth_error in Hc as (i & Hi). destruct (H4 i c Hi) as (Hd & _). exact (has_data_cap _ _ Hd). }
    assert (sync_coord_sizes b = bd_bufs b) as Hs.
    { apply sync_none; [exact H5|]. eapply Forall_impl; [|exact Hsz]. intros c (Hc & _). exact Hc. }
    destruct (bd_bufs b) as [|c0 bufs] eqn:Eb.
    { exfalso. destruct t as [[] [] []|]; discriminate H3. }
    destruct (finish_ok t code b c0 bufs Hok Hin H1 H3) as (b' & Eb' & Ho).
    - unfold synced. rewrite Hs. reflexivity.
    - exact Hs.
    - unfold synced. rewrite Hs, Forall_map. exact Hsz.
    - exists b'. split; [exact Eb'|]. cbn zeta. rewrite <- (holds_validity c0 _ _ (H4 0%nat c0 eq_refl)).
      replace (map content (seq 1 (buffer_count t - 1))) with (map data (map bf bufs)); [exact Ho|].
      rewrite map_map. cbn [length] in H3. replace (buffer_count t - 1)%nat with (length bufs) by lia.
      apply map_nth_seq. intros i c Hi. destruct (H4 (S i) c Hi) as (Hd & _). apply has_data_data. exact Hd.
  Qed.

  (** ** The property *)
  Lemma finish_ops t code b0 ops : kind_ok t -> In code (type_codes t) -> filling t code b0 (fun _ => []) (fun _ => false) ->
    ops_wf (buffer_count t) (fun _ => false) ops ->
    exists b b', run_ops junk b0 ops = Ok b /\ filling t code b' (fun _ => []) (fun _ => false) /\
      outcome_of (fits t (ops_validity ops) (ops_buffers t ops)) (assembled t (ops_validity ops) (ops_buffers t ops), b') (builder_finish b).
  Proof.
    intros Hok Hin Hf Hw. destruct (run_ops_ok t code Hok Hin ops _ b0 _ _ Hf Hw) as (b & E & F).
    destruct (finish_filling t code b _ _ Hok Hin F) as (b' & Er & Ho). exists b, b'. split; [exact E|]. split; [|exact Ho].
    destruct F as [C G _ _ _]. apply (fresh_filling t code b Hok Hin C (proj2 (proj2 G)) b' Er).
  Qed.

  Lemma init_filling t code b0 : kind_ok t -> In code (type_codes t) -> builder_init code = Ok b0 -> filling t code b0 (fun _ => []) (fun _ => false).
  Proof.
    intros Hok Hin E. pose proof E as E0.
    unfold builder_init in E. destruct (_ || _); [discriminate|]. destruct (array_view_init code); cbn [obind] in E; try discriminate.
    destruct (schema_init code); cbn [obind] in E; try discriminate.
    match type of E with builder_renew ?x = _ => set (b1 := x) in * end.
    assert (cfg code b1) as Hc1.
    { exists b0. split; [exact E0|]. unfold builder_renew in E. destruct (negb _); [discriminate|]. injection E as <-. repeat split. }
    apply (fresh_filling t code b1 Hok Hin Hc1); [cbn; unfold first_block; lia|exact E].
  Qed.

  Lemma finish_consistent t code ops : kind_ok t -> In code (type_codes t) -> ops_wf (buffer_count t) (fun _ => false) ops ->
    exists b0 b, builder_init code = Ok b0 /\ run_ops junk b0 ops = Ok b /\
      (fits t (ops_validity ops) (ops_buffers t ops) ->
         exists b', builder_finish b = Ok (assembled t (ops_validity ops) (ops_buffers t ops), b')) /\
      (~ fits t (ops_validity ops) (ops_buffers t ops) -> builder_finish b = Err EINVAL).
  Proof.
    intros Hok Hin Hw. destruct (init_ok t code Hok Hin) as (b0 & E0).
    destruct (finish_ops t code b0 ops Hok Hin (init_filling t code b0 Hok Hin E0) Hw) as (b & b' & E & _ & Ho).
    exists b0, b. split; [exact E0|]. split; [exact E|]. destruct Ho as [(H1 & H2)|(H1 & H2)]; split; intros H; try tauto. eauto.
  Qed.

  Lemma arrays_from t code : kind_ok t -> In code (type_codes t) -> forall batches b0, filling t code b0 (fun _ => []) (fun _ => false) ->
    Forall (ops_wf (buffer_count t) (fun _ => false)) batches ->
    Forall (fun ops => fits t (ops_validity ops) (ops_buffers t ops)) batches ->
    run_arrays junk b0 batches = Ok (map (fun ops => assembled t (ops_validity ops) (ops_buffers t ops)) batches).
  Proof.
    intros Hok Hin. induction batches as [|ops batches IH]; intros b0 Hf Hw Hfit; [reflexivity|]. cbn [run_arrays map].
    inversion Hw; inversion Hfit; subst.
    destruct (finish_ops t code b0 ops Hok Hin Hf ltac:(assumption)) as (b & b' & E & F & Ho). rewrite E. cbn [obind].
    destruct Ho as [(_ & ->)|(Hn & _)]; [|contradiction]. cbn [obind]. rewrite IH by assumption. reflexivity.
  Qed.

  Lemma arrays_ok t code batches : kind_ok t -> In code (type_codes t) ->
    Forall (ops_wf (buffer_count t) (fun _ => false)) batches ->
    Forall (fun ops => fits t (ops_validity ops) (ops_buffers t ops)) batches ->
    exists b0, builder_init code = Ok b0 /\
      run_arrays junk b0 batches = Ok (map (fun ops => assembled t (ops_validity ops) (ops_buffers t ops)) batches).
  Proof.
    intros Hok Hin Hw Hf. destruct (init_ok t code Hok Hin) as (b0 & E0). exists b0. split; [exact E0|].
    apply (arrays_from t code Hok Hin batches b0); try assumption. apply (init_filling t code b0 Hok Hin E0).
  Qed.
End Junk.
