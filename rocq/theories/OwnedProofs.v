(** * Memory that is given to builders is freed once, and not before its time *)
From Coq Require Import Permutation.
From Verif Require Import Base BaseFacts TypesModel GeomSpec BitmapModel BufferModel ArrowModel BuilderModel BuilderSpec BuilderRun BuilderFacts BuilderFinish BuilderProofs
  OwnedModel OwnedSpec.
Local Open Scope Z_scope.

(** ** Owners *)
Lemma owned_app l m : owned_objects (l ++ m) = owned_objects l ++ owned_objects m.
Proof. apply flat_map_app. Qed.
Lemma owned_none n : owned_objects (repeat None n) = [].
Proof. induction n; [reflexivity|exact IHn]. Qed.

Lemma owned_set x : forall l i, (i < length l)%nat ->
  Permutation (owned_objects [x] ++ owned_objects l) (owned_objects [nth i l None] ++ owned_objects (set_nth i x l)).
Proof.
  induction l as [|y l IH]; intros i Hi; [cbn in Hi; lia|]. destruct i; cbn [nth set_nth].
  - change (x :: l) with ([x] ++ l). change (y :: l) with ([y] ++ l). rewrite !owned_app, !app_assoc. apply Permutation_app_tail. apply Permutation_app_comm.
  - specialize (IH i ltac:(cbn in Hi; lia)). change (y :: l) with ([y] ++ l). change (y :: set_nth i x l) with ([y] ++ set_nth i x l). rewrite !owned_app.
    rewrite (Permutation_app_swap_app (owned_objects [x])), (Permutation_app_swap_app (owned_objects [nth i l None])).
    apply Permutation_app_head. exact IH.
Qed.
Lemma owned_unset l i o : nth i l None = Some o -> Permutation (owned_objects l) (own_object o :: owned_objects (set_nth i None l)).
Proof.
  intros H. destruct (Nat.lt_ge_cases i (length l)) as [L|L].
  - pose proof (owned_set None l i L) as P. rewrite H in P. exact P.
  - rewrite nth_overflow in H by exact L. discriminate.
Qed.

(** ** Every call *)
Definition sound (s : owned) : Prop :=
  length (bd_bufs (ow_builder s)) = Z.to_nat (bd_n_buffers (ow_builder s)) /\ length (ow_owners s) = length (bd_bufs (ow_builder s)).
Definition held (b : option owned) : list nat := match b with Some s => owned_objects (ow_owners s) | None => [] end.
Definition held_by_arrays (l : list (option (list nat))) : list nat := flat_map (fun a => match a with Some os => os | None => [] end) l.

(** Nothing is lost by a call that is given [news]. *)
Definition conserves (s : owned) (news : list nat) (r : result) : Prop :=
  let '(s', freed, _) := r in sound s' /\ Permutation (news ++ owned_objects (ow_owners s)) (freed ++ owned_objects (ow_owners s')).

Lemma conserves_same s code : sound s -> conserves s [] (s, [], code).
Proof. intros H. split; [exact H|]. apply Permutation_refl. Qed.

Section Junk.
  Variable junk : nat -> nat -> N.

  Lemma set_buf_sound b l i c : sound (Owned b l) -> sound (Owned (set_buf b i c) l).
  Proof. intros (H1 & H2). cbn [ow_builder ow_owners] in *. unfold sound, set_buf. cbn. rewrite set_nth_length. auto. Qed.

  Lemma reserve_buffer_shape b i n b' : reserve_buffer junk b i n = Ok b' -> length (bd_bufs b') = length (bd_bufs b) /\ bd_n_buffers b' = bd_n_buffers b.
  Proof.
    unfold reserve_buffer. destruct (get_buf b i); cbn [obind]; try discriminate. destruct (_ =? _); intros E; injection E as <-; [auto|].
    cbn. rewrite set_nth_length. auto.
  Qed.

  Lemma reserve_conserves s i n r : sound s -> own_reserve junk s i n = Ok r -> conserves s [] r.
  Proof.
    intros H E. unfold own_reserve in E. destruct (get_buf _ _) as [c| | |] eqn:Ec; cbn [obind] in E; try discriminate.
    destruct (_ <=? _); [injection E as <-; apply conserves_same; exact H|].
    destruct (owner_at s i) as [o|] eqn:Eo.
    - injection E as <-. split.
      + destruct s as [b l]. cbn [ow_builder ow_owners]. pose proof (set_buf_sound b l i {| bf_id := bf_id c; bf := {| w_mem := []; w_size := w_size (bf c) |} |} H) as (H1 & H2).
        split; [exact H1|]. cbn [ow_owners ow_builder] in *. rewrite set_nth_length. exact H2.
      + cbn [ow_owners app]. apply owned_unset. exact Eo.
    - destruct (reserve_buffer _ _ _ _) as [b| | |] eqn:Eb; cbn [obind] in E; try discriminate. injection E as <-.
      destruct (reserve_buffer_shape _ _ _ _ Eb) as (L & N). destruct H as (H1 & H2). split; [|apply Permutation_refl].
      split; cbn [ow_builder ow_owners]; congruence.
  Qed.

  Lemma copy_conserves s news r i bs r' : conserves s news r -> own_copy r i bs = Ok r' -> conserves s news r'.
  Proof.
    intros H E. destruct r as [[s1 freed] code]. cbn [own_copy] in E. destruct (code =? 0); [|injection E as <-; exact H].
    unfold append_buffer_unsafe in E. destruct (get_buf _ _) as [c| | |]; cbn [obind] in E; try discriminate.
    destruct (upd_bytes _ _ _); cbn [obind] in E; try discriminate. injection E as <-. destruct H as (S' & P). split; [|exact P].
    destruct s1 as [b l]. apply set_buf_sound. exact S'.
  Qed.

  Lemma append_conserves s i bs r : sound s -> own_append junk s i bs = Ok r -> conserves s [] r.
  Proof.
    intros H E. unfold own_append in E. destruct (get_buf _ _) as [c| | |]; cbn [obind] in E; try discriminate.
    destruct (gone _ _); [injection E as <-; apply conserves_same; exact H|].
    destruct (_ <=? _); cbn [obind] in E; [exact (copy_conserves _ _ _ _ _ _ (conserves_same s 0 H) E)|].
    destruct (own_reserve _ _ _ _) as [r1| | |] eqn:Er; cbn [obind] in E; try discriminate.
    exact (copy_conserves _ _ _ _ _ _ (reserve_conserves _ _ _ _ H Er) E).
  Qed.

  Lemma append_offsets_conserves s i vs r : sound s -> own_append_offsets junk s i vs = Ok r -> conserves s [] r.
  Proof.
    intros H E. unfold own_append_offsets in E. destruct (get_buf _ _) as [c| | |]; cbn [obind] in E; try discriminate.
    destruct (gone _ _); [injection E as <-; apply conserves_same; exact H|].
    destruct (_ <=? _); cbn [obind] in E; [exact (copy_conserves _ _ _ _ _ _ (conserves_same s 0 H) E)|].
    destruct (own_reserve _ _ _ _) as [r1| | |] eqn:Er; cbn [obind] in E; try discriminate.
    exact (copy_conserves _ _ _ _ _ _ (reserve_conserves _ _ _ _ H Er) E).
  Qed.

  Lemma set_conserves s i w r : sound s -> cpp_set_buffer_wrapped s i w = Ok r -> conserves s [wr_object w] r.
  Proof.
    intros H E. unfold cpp_set_buffer_wrapped, set_owned_buffer in E. destruct H as (H1 & H2).
    destruct ((i <? 0) || _) eqn:Ei.
    { injection E as <-. split; [split; assumption|]. apply Permutation_refl. }
    unfold get_buf in E. destruct (i <? 0); [discriminate|].
    destruct (nth_error _ _) as [c|] eqn:Ec; cbn [or_ub obind] in E; [|discriminate].
    injection E as <-. split.
    - split; cbn [ow_builder ow_owners bd_bufs bd_n_buffers with_bufs]; rewrite !set_nth_length; assumption.
    - cbn [ow_owners]. unfold owner_at.
      match goal with |- context [set_nth _ (Some ?o) _] => change [wr_object w] with (owned_objects [Some o]) end.
      apply owned_set. rewrite H2. apply nth_error_Some. congruence.
  Qed.

  Lemma finalize_conserves : forall is s r, sound s -> finalize_buffers junk s is = Ok r -> conserves s [] r.
  Proof.
    induction is as [|i is IH]; intros s r H E; cbn [finalize_buffers] in E; [injection E as <-; apply conserves_same; exact H|].
    destruct (finalize_buffer junk s (Z.of_nat i)) as [[[s1 f1] c1]| | |] eqn:E1; cbn [obind] in E; try discriminate.
    assert (conserves s [] (s1, f1, c1)) as (S1 & P1).
    { unfold finalize_buffer in E1. destruct (get_buf _ _) as [c| | |]; cbn [obind] in E1; try discriminate.
      destruct (owner_at s _) as [o|]; [destruct (own_null o)|destruct (_ <? _)];
        try (exact (reserve_conserves _ _ _ _ H E1)); injection E1 as <- <- <-; apply conserves_same; exact H. }
    destruct (c1 =? 0); [|injection E as <-; split; assumption].
    destruct (finalize_buffers junk s1 is) as [[[s2 f2] c2]| | |] eqn:E2; cbn [obind] in E; try discriminate. injection E as <-.
    destruct (IH _ _ S1 E2) as (S2 & P2). split; [exact S2|]. rewrite <- app_assoc. rewrite P1. apply Permutation_app_head. exact P2.
  Qed.

  Lemma finish_shape b a b' : builder_finish b = Ok (a, b') -> length (bd_bufs b') = Z.to_nat (bd_n_buffers b) /\ bd_n_buffers b' = bd_n_buffers b.
  Proof.
    unfold builder_finish. destruct (set_lengths _ _ _ _); cbn [obind]; try discriminate.
    destruct (set_container_length _ _); cbn [obind]; try discriminate. destruct (existsb _ _); try discriminate.
    destruct (validate_default _); cbn [obind]; try discriminate.
    unfold builder_renew. destruct (negb _); cbn [obind]; try discriminate. intros E. injection E as _ <-. cbn. rewrite map_length, seq_length. auto.
  Qed.

  Lemma finish_conserves s r a : sound s -> cpp_builder_finish junk s = Ok (r, a) ->
    let '(s', freed, _) := r in
    sound s' /\ Permutation (owned_objects (ow_owners s)) (freed ++ owned_objects (ow_owners s') ++ match a with Some (_, os) => os | None => [] end).
  Proof.
    intros H E. unfold cpp_builder_finish in E. destruct (finalize_buffers _ _ _) as [[[s1 f1] c1]| | |] eqn:E1; cbn [obind] in E; try discriminate.
    destruct (finalize_conserves _ _ _ H E1) as (S1 & P1). cbn [app] in P1.
    destruct (c1 =? 0).
    - destruct (builder_finish (ow_builder s1)) as [[arr b]|e| |] eqn:E2; try discriminate; injection E as <- <-.
      + cbn [ow_owners]. rewrite owned_none. split; [|exact P1]. destruct (finish_shape _ _ _ E2) as (L & N). destruct S1 as (S1 & S2).
        split; cbn [ow_builder ow_owners]; [congruence|]. rewrite repeat_length. congruence.
      + split; [exact S1|]. rewrite app_nil_r. exact P1.
    - injection E as <- <-. split; [exact S1|]. rewrite app_nil_r. exact P1.
  Qed.

  (** ** Programs *)
  Definition intact (p : program) (given : list nat) : Prop :=
    (forall s, pr_builder p = Some s -> sound s) /\
    Permutation given (pr_freed p ++ held (pr_builder p) ++ held_by_arrays (pr_arrays p)).

  Lemma held_app l m : held_by_arrays (l ++ m) = held_by_arrays l ++ held_by_arrays m.
  Proof. apply flat_map_app. Qed.

  Lemma held_release os : forall l k, nth k l None = Some os -> Permutation (held_by_arrays l) (os ++ held_by_arrays (set_nth k None l)).
  Proof.
    induction l as [|y l IH]; intros [|k] H; cbn [nth] in H; try discriminate.
    - subst. cbn. apply Permutation_refl.
    - cbn [set_nth held_by_arrays flat_map]. fold (held_by_arrays l). fold (held_by_arrays (set_nth k None l)).
      rewrite (Permutation_app_swap_app os). apply Permutation_app_head. apply IH. exact H.
  Qed.

  Lemma after_intact p s news given r : pr_builder p = Some s -> intact p given -> conserves s news r ->
    intact (fst (fst (after p r))) (given ++ news).
  Proof.
    intros Eb (_ & P) C. destruct r as [[s' freed] code]. destruct C as (S' & C). unfold after. cbn [fst]. split; cbn [pr_builder pr_arrays pr_freed].
    { intros x E. injection E as <-. exact S'. }
    rewrite P, Eb. cbn [held]. rewrite <- !app_assoc. apply Permutation_app_head. rewrite (Permutation_app_comm (held_by_arrays _) news).
    rewrite !app_assoc. apply Permutation_app_tail. rewrite <- C. apply Permutation_app_comm.
  Qed.

  Lemma step_intact p call given p' code a : intact p given -> build_step junk p call = Ok (p', code, a) ->
    intact p' (given ++ given_objects [call]).
  Proof.
    intros H E. assert (forall g, g ++ [] = g :> list nat) as An by (intros; apply app_nil_r).
    pose proof H as (HS & HP).
    destruct call; cbn [given_objects flat_map app]; rewrite ?An; cbn [build_step] in E.
    - destruct (pr_builder p) as [s|] eqn:Eb; [|discriminate].
      destruct (cpp_set_buffer_wrapped s i w) as [r| | |] eqn:Er; cbn [obind] in E; try discriminate.
      pose proof (after_intact p s _ given r Eb H (set_conserves _ _ _ _ (HS s eq_refl) Er)) as A. destruct (after p r) as [[p1 c1] a1]. injection E as <- <- <-. exact A.
    - destruct (pr_builder p) as [s|] eqn:Eb; [|discriminate].
      destruct (own_append junk s i bs) as [r| | |] eqn:Er; cbn [obind] in E; try discriminate.
      pose proof (after_intact p s _ given r Eb H (append_conserves _ _ _ _ (HS s eq_refl) Er)) as A. rewrite An in A. destruct (after p r) as [[p1 c1] a1]. injection E as <- <- <-. exact A.
    - destruct (pr_builder p) as [s|] eqn:Eb; [|discriminate].
      destruct (own_append_offsets junk s i vs) as [r| | |] eqn:Er; cbn [obind] in E; try discriminate.
      pose proof (after_intact p s _ given r Eb H (append_offsets_conserves _ _ _ _ (HS s eq_refl) Er)) as A. rewrite An in A. destruct (after p r) as [[p1 c1] a1]. injection E as <- <- <-. exact A.
    - destruct (pr_builder p) as [s|] eqn:Eb; [|discriminate].
      destruct (own_reserve junk s i n) as [r| | |] eqn:Er; cbn [obind] in E; try discriminate.
      pose proof (after_intact p s _ given r Eb H (reserve_conserves _ _ _ _ (HS s eq_refl) Er)) as A. rewrite An in A. destruct (after p r) as [[p1 c1] a1]. injection E as <- <- <-. exact A.
    - destruct (pr_builder p) as [s|] eqn:Eb; [|discriminate].
      destruct (cpp_builder_finish junk s) as [[r arr]| | |] eqn:Er; cbn [obind] in E; try discriminate.
      pose proof (finish_conserves _ _ _ (HS s eq_refl) Er) as C. destruct r as [[s' freed] c]. destruct C as (S' & C).
      destruct arr as [[arr os]|].
      + injection E as <- <- <-. split; cbn [pr_builder pr_arrays pr_freed held]; [intros x Ex; injection Ex as <-; exact S'|].
        rewrite HP. cbn [held]. rewrite C, held_app. cbn [held_by_arrays flat_map]. rewrite app_nil_r, <- !app_assoc. do 3 apply Permutation_app_head. apply Permutation_app_comm.
      + injection E as <- <- <-. rewrite app_nil_r in C. split; cbn [pr_builder pr_arrays pr_freed held]; [intros x Ex; injection Ex as <-; exact S'|].
        rewrite HP. cbn [held]. rewrite C, <- !app_assoc. apply Permutation_refl.
    - destruct (nth k (pr_arrays p) None) as [os|] eqn:Ek.
      + assert (p' = Program (pr_builder p) (set_nth k None (pr_arrays p)) (pr_freed p ++ os)) as ->.
        { destruct (pr_builder p); injection E as <- _ _; reflexivity. }
        split; cbn [pr_builder pr_arrays pr_freed]; [exact HS|]. rewrite HP, (held_release os _ _ Ek), <- !app_assoc.
        apply Permutation_app_head. apply Permutation_app_swap_app.
      + destruct (pr_builder p); discriminate.
    - destruct (pr_builder p) as [s|] eqn:Eb; [|discriminate]. injection E as <- <- <-. split; cbn [pr_builder pr_arrays pr_freed held]; [discriminate|].
      rewrite HP. cbn [held]. rewrite <- !app_assoc. apply Permutation_refl.
  Qed.

  Lemma calls_intact : forall calls p given p' rs, intact p given -> build_calls junk p calls = Ok (p', rs) ->
    intact p' (given ++ given_objects calls).
  Proof.
    induction calls as [|call calls IH]; intros p given p' rs H E; cbn [build_calls] in E.
    - injection E as <- <-. unfold given_objects. cbn. rewrite app_nil_r. exact H.
    - destruct (build_step junk p call) as [[[p1 code] a]| | |] eqn:E1; cbn [obind] in E; try discriminate.
      destruct (build_calls junk p1 calls) as [[p2 rs2]| | |] eqn:E2; cbn [obind] in E; try discriminate. injection E as <- <-.
      pose proof (IH _ _ _ _ (step_intact _ _ _ _ _ _ H E1) E2) as A. rewrite <- app_assoc in A.
      unfold given_objects in *. cbn [flat_map app] in A. rewrite app_nil_r in A. exact A.
  Qed.

  Lemma new_builder_sound t s : new_builder t = Ok s -> sound s /\ owned_objects (ow_owners s) = [].
  Proof.
    unfold new_builder. destruct (builder_init t) as [b| | |] eqn:Eb; cbn [obind]; try discriminate. intros E. injection E as <-. cbn [ow_owners].
    split; [|apply owned_none]. split; cbn [ow_builder ow_owners]; [|apply repeat_length].
    unfold builder_init in Eb. destruct (_ || _); [discriminate|]. destruct (ArrayViewModel.array_view_init t); cbn [obind] in Eb; try discriminate.
    destruct (BuilderModel.schema_init t); cbn [obind] in Eb; try discriminate. unfold builder_renew in Eb. destruct (negb _); [discriminate|]. injection Eb as <-.
    cbn [bd_bufs bd_n_buffers with_coord_view with_bufs]. rewrite map_length, seq_length. reflexivity.
  Qed.

  Lemma session_intact t calls p rs : build_session junk t calls = Ok (p, rs) -> intact p (given_objects calls).
  Proof.
    unfold build_session. destruct (new_builder t) as [s| | |] eqn:Es; cbn [obind]; try discriminate. intros E.
    destruct (new_builder_sound _ _ Es) as (S' & N).
    apply (calls_intact calls (Program (Some s) [] []) [] p rs); [|exact E]. split; cbn [pr_builder pr_arrays pr_freed held].
    - intros x Ex. injection Ex as <-. exact S'.
    - rewrite N. apply Permutation_refl.
  Qed.

  Lemma freed_once t calls p rs : build_session junk t calls = Ok (p, rs) -> all_released p -> Permutation (given_objects calls) (pr_freed p).
  Proof.
    intros E (Hb & Ha). destruct (session_intact _ _ _ _ E) as (_ & P). rewrite Hb in P. cbn [held] in P.
    assert (held_by_arrays (pr_arrays p) = []) as Hn.
    { clear -Ha. induction Ha as [|x l -> _ IH]; [reflexivity|exact IH]. }
    rewrite Hn, !app_nil_r in P. exact P.
  Qed.

  Lemma nodup_disjoint {A} (l m : list A) : NoDup (l ++ m) -> forall x, In x m -> ~ In x l.
  Proof.
    induction l as [|y l IH]; intros H x Hx Hl; [destruct Hl|]. cbn in H. inversion H as [|? ? Hn Hd]; subst. destruct Hl as [->|Hl].
    - apply Hn. apply in_or_app. right. exact Hx.
    - exact (IH Hd x Hx Hl).
  Qed.
  Lemma nodup_left {A} (l m : list A) : NoDup (l ++ m) -> NoDup l.
  Proof.
    induction l as [|y l IH]; intros H; [constructor|]. cbn in H. inversion H as [|? ? Hn Hd]; subst. constructor; [|exact (IH Hd)].
    intros Hl. apply Hn. apply in_or_app. left. exact Hl.
  Qed.

  Lemma not_before t calls p rs : build_session junk t calls = Ok (p, rs) -> NoDup (given_objects calls) ->
    NoDup (pr_freed p) /\ forall k os, nth_error (pr_arrays p) k = Some (Some os) -> forall o, In o os -> ~ In o (pr_freed p).
  Proof.
    intros E H. destruct (session_intact _ _ _ _ E) as (_ & P). pose proof (Permutation_NoDup P H) as D. split; [exact (nodup_left _ _ D)|].
    intros k os Ek o Ho. apply (nodup_disjoint _ _ D). apply in_or_app. right. apply in_flat_map. exists (Some os). split; [|exact Ho].
    apply nth_error_In in Ek. exact Ek.
  Qed.

  (** ** Content *)
  Hypothesis junk_bytes : forall i j, is_byte (junk i j).

  (** The owners, by the objects given so far ([None]: memory of the builder's own). *)
  Definition owners_are (n : nat) (l : list (option owner)) (who : nat -> option nat) : Prop :=
    length l = n /\ forall j, (j < n)%nat -> match nth j l None with
                                             | Some o => who j = Some (own_object o) /\ (j <> O -> own_null o = false)
                                             | None => who j = None
                                             end.
  Definition gives (who : nat -> option nat) (call : build_call) (j : nat) : option nat :=
    match call with BSetBufferWrapped i w => if i =? Z.of_nat j then Some (wr_object w) else who j | _ => who j end.

  Lemma owners_at n s who i : owners_are n (ow_owners s) who -> (i < n)%nat -> who i = None -> owner_at s (Z.of_nat i) = None.
  Proof.
    intros (_ & H) Hi Hw. unfold owner_at. rewrite Nat2Z.id. specialize (H i Hi). destruct (nth i _ None); [|reflexivity]. destruct H as (H & _). congruence.
  Qed.

  Lemma sized_check t code b content alloc i c : filling t code b content alloc -> nth_error (bd_bufs b) i = Some c ->
    sized (bf c) /\ w_size (bf c) = blen (content i).
  Proof. intros [_ _ _ H _] Ec. destruct (H i c Ec) as (Hd & _). split; [exact (has_data_cap _ _ Hd)|exact (proj1 Hd)]. Qed.

  Lemma owners_set n l who j o : owners_are n l who -> (j < n)%nat -> (j <> O -> own_null o = false) ->
    owners_are n (set_nth j (Some o) l) (fun k => if Z.of_nat j =? Z.of_nat k then Some (own_object o) else who k).
  Proof.
    intros (L & H) Hj Hn. split; [rewrite set_nth_length; exact L|]. intros k Hk. specialize (H k Hk).
    assert (nth k (set_nth j (Some o) l) None = if Nat.eqb k j then Some o else nth k l None) as ->.
    { clear -L Hj. revert j k n L Hj. induction l as [|y l IH]; intros j k n L Hj; [cbn in L; lia|].
      destruct j, k; cbn [set_nth nth Nat.eqb]; try reflexivity. apply (IH j k (pred n)); cbn in L; lia. }
    destruct (Nat.eqb_spec k j) as [->|Hne].
    - rewrite Z.eqb_refl. split; [reflexivity|exact Hn].
    - destruct (Z.eqb_spec (Z.of_nat j) (Z.of_nat k)); [lia|]. exact H.
  Qed.

  Lemma append_same t code s content alloc who i bs b' : filling t code (ow_builder s) content alloc -> owners_are (buffer_count t) (ow_owners s) who ->
    (i < buffer_count t)%nat -> who i = None -> append_buffer junk (ow_builder s) (Z.of_nat i) bs = Ok b' ->
    own_append junk s (Z.of_nat i) bs = Ok (Owned b' (ow_owners s), [], 0).
  Proof.
    intros F O Hi Hw E. destruct (nth_error (bd_bufs (ow_builder s)) i) as [c|] eqn:Ec.
    2:{ apply nth_error_None in Ec. rewrite (fi_len _ _ _ _ _ F) in Ec. lia. }
    destruct (sized_check _ _ _ _ _ _ _ F Ec) as ((Hs0 & Hs1) & _).
    unfold own_append, append_buffer in *. rewrite (get_buf_ok _ _ _ Ec) in *. cbn [obind] in *.
    unfold gone. destruct (Z.ltb_spec (w_cap (bf c)) (w_size (bf c))); [lia|]. cbn [andb].
    destruct (Z.leb_spec (w_size (bf c) + Z.of_nat (length bs)) (w_cap (bf c))) as [L|L]; cbn [obind] in *.
    - cbn [own_copy Z.eqb]. rewrite E. reflexivity.
    - unfold own_reserve. rewrite (get_buf_ok _ _ _ Ec). cbn [obind]. destruct (Z.leb_spec (w_size (bf c) + Z.of_nat (length bs)) (w_cap (bf c))); [lia|].
      rewrite (owners_at _ _ _ _ O Hi Hw). destruct (reserve_buffer _ _ _ _) as [b1| | |]; cbn [obind] in *; try discriminate.
      cbn [own_copy Z.eqb ow_builder ow_owners]. rewrite E. reflexivity.
  Qed.

  Lemma reserve_same t code s content alloc who i n b' : filling t code (ow_builder s) content alloc -> owners_are (buffer_count t) (ow_owners s) who ->
    (i < buffer_count t)%nat -> who i = None -> reserve_buffer junk (ow_builder s) (Z.of_nat i) n = Ok b' ->
    own_reserve junk s (Z.of_nat i) n = Ok (Owned b' (ow_owners s), [], 0).
  Proof.
    intros F O Hi Hw E. destruct (nth_error (bd_bufs (ow_builder s)) i) as [c|] eqn:Ec.
    2:{ apply nth_error_None in Ec. rewrite (fi_len _ _ _ _ _ F) in Ec. lia. }
    unfold own_reserve. rewrite (get_buf_ok _ _ _ Ec). cbn [obind].
    destruct (Z.leb_spec (w_size (bf c) + n) (w_cap (bf c))) as [L|L].
    - unfold reserve_buffer in E. rewrite (get_buf_ok _ _ _ Ec) in E. cbn [obind] in E. unfold wbuf_reserve in E.
      destruct (Z.leb_spec (w_size (bf c) + n) (w_cap (bf c))); [|lia]. rewrite Z.eqb_refl in E. injection E as <-. destruct s. reflexivity.
    - rewrite (owners_at _ _ _ _ O Hi Hw), E. reflexivity.
  Qed.

  Lemma offset_bytes_length vs : Z.of_nat (length (offset_bytes vs)) = 4 * Z.of_nat (length vs).
  Proof. unfold offset_bytes. induction vs as [|v vs IH]; [reflexivity|]. cbn [flat_map]. rewrite app_length, le_bytes_length, Nat2Z.inj_add, IH. cbn [length]. lia. Qed.

  Lemma append_offsets_same t code s content alloc i j vs : filling t code (ow_builder s) content alloc -> (j < buffer_count t)%nat ->
    i + 1 = Z.of_nat j -> blen (content j) mod 4 = 0 -> own_append_offsets junk s i vs = own_append junk s (Z.of_nat j) (offset_bytes vs).
  Proof.
    intros F Hi Ej Hm. destruct (nth_error (bd_bufs (ow_builder s)) j) as [c|] eqn:Ec.
    2:{ apply nth_error_None in Ec. rewrite (fi_len _ _ _ _ _ F) in Ec. lia. }
    destruct (sized_check _ _ _ _ _ _ _ F Ec) as ((Hs0 & Hs1) & Hb).
    unfold own_append_offsets, own_append. rewrite Ej, (get_buf_ok _ _ _ Ec). cbn [obind]. destruct (gone c _); [reflexivity|].
    rewrite offset_bytes_length, (Z.mul_comm 4). rewrite <- Hb in Hm.
    replace (w_size (bf c) / 4 + Z.of_nat (length vs) <=? w_cap (bf c) / 4) with (w_size (bf c) + Z.of_nat (length vs) * 4 <=? w_cap (bf c)); [reflexivity|].
    pose proof (Z_div_mod_eq_full (w_size (bf c)) 4). pose proof (Z_div_mod_eq_full (w_cap (bf c)) 4). pose proof (Z.mod_pos_bound (w_cap (bf c)) 4 ltac:(lia)).
    destruct (Z.leb_spec (w_size (bf c) + Z.of_nat (length vs) * 4) (w_cap (bf c)));
      destruct (Z.leb_spec (w_size (bf c) / 4 + Z.of_nat (length vs)) (w_cap (bf c) / 4)); try reflexivity; lia.
  Qed.

  (** A call that fills a buffer does as the corresponding call on a builder. *)
  Lemma fill_step t code p s content alloc who call o b' : filling t code (ow_builder s) content alloc -> owners_are (buffer_count t) (ow_owners s) who ->
    pr_builder p = Some s -> fills content call o -> op_wf (buffer_count t) o -> (match o with BSet _ _ => True | _ => who (op_index o) = None end) ->
    run_op junk (ow_builder s) o = Ok b' ->
    exists l freed, build_step junk p call = Ok (Program (Some (Owned b' l)) (pr_arrays p) (pr_freed p ++ freed), 0, None) /\
      owners_are (buffer_count t) l (gives who call).
  Proof.
    intros F O Eb Hf (Hi & Hw) Hwho E.
    destruct call, o; cbn [fills] in Hf; try contradiction; cbn [run_op op_index] in *; cbn [build_step]; rewrite Eb.
    - destruct Hf as (-> & Hm). unfold cpp_set_buffer_wrapped.
      assert ((match wr_memory w with Some b => b | None => [] end) = bs) as ->.
      { destruct i0; rewrite Hm; [destruct bs|]; reflexivity. }
      rewrite E. cbn [obind]. eexists. eexists. split; [reflexivity|]. rewrite Nat2Z.id.
      match goal with |- context [Some ?x] => match x with Owner _ _ => apply (owners_set _ _ _ i0 x O Hi) end end.
      intros H0. destruct i0; [contradiction|]. rewrite Hm. reflexivity.
    - destruct Hf as (-> & ->). rewrite (append_same _ _ _ _ _ _ _ _ _ F O Hi Hwho E). cbn [obind]. exists (ow_owners s), []. split; [reflexivity|exact O].
    - destruct Hf as (Ej & Hm & ->). rewrite (append_offsets_same _ _ _ _ _ i _ _ F Hi Ej Hm).
      change (flat_map _ vs) with (offset_bytes vs) in E. rewrite (append_same _ _ _ _ _ _ _ _ _ F O Hi Hwho E). cbn [obind]. exists (ow_owners s), []. split; [reflexivity|exact O].
    - destruct Hf as (-> & ->). rewrite (reserve_same _ _ _ _ _ _ _ _ _ F O Hi Hwho E). cbn [obind]. exists (ow_owners s), []. split; [reflexivity|exact O].
  Qed.

  Lemma fill_calls t code : kind_ok t -> In code (type_codes t) -> forall calls ops given p s content alloc who b',
    filling t code (ow_builder s) content alloc -> owners_are (buffer_count t) (ow_owners s) who -> pr_builder p = Some s ->
    fills_all content calls ops -> ops_wf (buffer_count t) given ops -> (forall j, given j = false -> who j = None) ->
    run_ops junk (ow_builder s) ops = Ok b' ->
    exists l freed rs, build_calls junk p calls = Ok (Program (Some (Owned b' l)) (pr_arrays p) (pr_freed p ++ freed), rs) /\
      Forall (fun r => r = (0, None)) rs /\ owners_are (buffer_count t) l (fun j => fold_left (fun acc call => gives (fun _ => acc) call j) calls (who j)).
  Proof.
    intros Hok Hin. induction calls as [|call calls IH]; intros [|o ops] given p s content alloc who b' F O Eb Hf Hw Hg E; cbn [fills_all] in Hf; try contradiction.
    - cbn [run_ops] in E. injection E as <-. exists (ow_owners s), [], []. cbn [build_calls fold_left]. rewrite app_nil_r. split; [|split; [constructor|exact O]].
      destruct p, s. cbn in *. subst. reflexivity.
    - destruct Hf as (Hf & Hfs). cbn [ops_wf] in Hw. destruct Hw as (Ho & Hr).
      destruct (run_op_ok junk junk_bytes t code _ content alloc o Hok Hin F Ho) as (b1 & E1 & F1).
      cbn [run_ops] in E. rewrite E1 in E. cbn [obind] in E.
      destruct (fill_step t code p s content alloc who call o b1 F O Eb Hf Ho) as (l1 & freed1 & St & O1); [destruct o; [apply Hg, Hr|apply Hg, Hr|exact I]|exact E1|].
      set (p1 := Program (Some (Owned b1 l1)) (pr_arrays p) (pr_freed p ++ freed1)) in *.
      assert (exists g, ops_wf (buffer_count t) g ops /\ forall j, g j = false -> gives who call j = None) as (g & Hg1 & Hg2).
      { destruct call, o; cbn [fills] in Hf; try contradiction; cbn [gives].
        - exists (fun j => Nat.eqb i0 j || given j). split; [exact Hr|]. intros j Hj. apply Bool.orb_false_iff in Hj as (Hj1 & Hj2).
          destruct Hf as (-> & _). apply Nat.eqb_neq in Hj1. destruct (Z.eqb_spec (Z.of_nat i0) (Z.of_nat j)); [lia|]. apply Hg. exact Hj2.
        - exists given. split; [apply Hr|exact Hg].
        - exists given. split; [apply Hr|exact Hg].
        - exists given. split; [apply Hr|exact Hg]. }
      destruct (IH ops g p1 (Owned b1 l1) _ _ _ b' F1 O1 eq_refl Hfs Hg1 Hg2 E) as (l & freed & rs & Ec & Hrs & O2).
      exists l, (freed1 ++ freed), ((0, None) :: rs). cbn [build_calls]. rewrite St. cbn [obind]. fold p1. rewrite Ec. cbn [obind]. split; [|split].
      + subst p1. cbn [pr_arrays pr_freed]. rewrite app_assoc. reflexivity.
      + constructor; [reflexivity|exact Hrs].
      + destruct O2 as (L2 & O2). split; [exact L2|]. intros j Hj. specialize (O2 j Hj). cbn [fold_left].
        replace (gives (fun _ => who j) call j) with (gives who call j) by (destruct call; reflexivity). exact O2.
  Qed.

  Lemma finalize_none t code s content alloc who : filling t code (ow_builder s) content alloc -> owners_are (buffer_count t) (ow_owners s) who ->
    forall is, (forall i, In i is -> (1 <= i < buffer_count t)%nat) -> finalize_buffers junk s is = Ok (s, [], 0).
  Proof.
    intros F O. induction is as [|i is IH]; intros Hi; [reflexivity|]. cbn [finalize_buffers].
    assert (finalize_buffer junk s (Z.of_nat i) = Ok (s, [], 0)) as ->.
    { specialize (Hi i (or_introl eq_refl)). destruct (nth_error (bd_bufs (ow_builder s)) i) as [c|] eqn:Ec.
      2:{ apply nth_error_None in Ec. rewrite (fi_len _ _ _ _ _ F) in Ec. lia. }
      destruct (sized_check _ _ _ _ _ _ _ F Ec) as ((Hs0 & Hs1) & _).
      unfold finalize_buffer, owner_at. rewrite (get_buf_ok _ _ _ Ec), Nat2Z.id. cbn [obind].
      destruct O as (_ & O). specialize (O i ltac:(lia)). destruct (nth i (ow_owners s) None) as [o|].
      - destruct O as (_ & O). rewrite O by lia. reflexivity.
      - destruct (Z.ltb_spec (w_cap (bf c)) (w_size (bf c))); [lia|]. reflexivity. }
    cbn [obind]. change (0 =? 0) with true. cbn match. rewrite IH by (intros; apply Hi; right; assumption). reflexivity.
  Qed.

  Lemma owned_who : forall l who s, (forall j, (j < length l)%nat -> match nth j l None with Some o => who (s + j)%nat = Some (own_object o) | None => who (s + j)%nat = None end) ->
    owned_objects l = flat_map (fun j => match who j with Some o => [o] | None => [] end) (seq s (length l)).
  Proof.
    induction l as [|x l IH]; intros who s H; [reflexivity|]. cbn [length seq flat_map owned_objects]. fold (owned_objects l).
    pose proof (H O ltac:(cbn; lia)) as H0. cbn [nth] in H0. rewrite Nat.add_0_r in H0. rewrite (IH who (S s)).
    - destruct x; rewrite H0; reflexivity.
    - intros j Hj. specialize (H (S j) ltac:(cbn; lia)). cbn [nth] in H. replace (S s + j)%nat with (s + S j)%nat by lia. exact H.
  Qed.

  Definition batch_calls (batch : list build_call * list bop) : list build_call := fst batch ++ [BFinish].

  Lemma calls_app : forall calls1 calls2 p p1 rs1, build_calls junk p calls1 = Ok (p1, rs1) ->
    build_calls junk p (calls1 ++ calls2) = do (p2, rs2) <- build_calls junk p1 calls2; Ok (p2, rs1 ++ rs2).
  Proof.
    induction calls1 as [|c calls1 IH]; intros calls2 p p1 rs1 E; cbn [build_calls app] in *.
    - injection E as <- <-. destruct (build_calls junk p calls2) as [[]| | |]; reflexivity.
    - destruct (build_step junk p c) as [[[p2 code] a]| | |]; cbn [obind] in *; try discriminate.
      destruct (build_calls junk p2 calls1) as [[p3 rs3]| | |] eqn:E3; cbn [obind] in *; try discriminate. injection E as <- <-.
      rewrite (IH calls2 p2 p3 rs3 E3). destruct (build_calls junk p3 calls2) as [[]| | |]; reflexivity.
  Qed.

  Lemma batch_ok t code calls ops p s : kind_ok t -> In code (type_codes t) ->
    filling t code (ow_builder s) (fun _ => []) (fun _ => false) -> ow_owners s = repeat None (buffer_count t) -> pr_builder p = Some s ->
    fills_all (fun _ => []) calls ops -> ops_wf (buffer_count t) (fun _ => false) ops -> fits t (ops_validity ops) (ops_buffers t ops) ->
    exists b' freed rs, build_calls junk p (calls ++ [BFinish]) =
        Ok (Program (Some (Owned b' (repeat None (buffer_count t)))) (pr_arrays p ++ [Some (kept (buffer_count t) calls)]) (pr_freed p ++ freed), rs) /\
      filling t code b' (fun _ => []) (fun _ => false) /\ Forall (fun r => fst r = 0) rs /\
      arrays_of rs = [assembled t (ops_validity ops) (ops_buffers t ops)].
  Proof.
    intros Hok Hin F Hn Eb Hf Hw Hfit.
    destruct (run_ops_ok junk junk_bytes t code Hok Hin ops _ (ow_builder s) _ _ F Hw) as (b & E & F1).
    destruct (finish_ops junk junk_bytes t code (ow_builder s) ops Hok Hin F Hw) as (b1 & b' & E' & F' & Ho).
    rewrite E in E'. injection E' as <-. destruct Ho as [(_ & Ho)|(Hx & _)]; [|contradiction].
    assert (owners_are (buffer_count t) (ow_owners s) (fun _ => None)) as O.
    { rewrite Hn. split; [apply repeat_length|]. intros j Hj. rewrite nth_repeat. reflexivity. }
    destruct (fill_calls t code Hok Hin calls ops _ p s _ _ _ b F O Eb Hf Hw (fun _ _ => eq_refl) E) as (l & freed & rs & Ec & Hrs & O2).
    exists b', freed, (rs ++ [(0, Some (assembled t (ops_validity ops) (ops_buffers t ops)))]).
    rewrite (calls_app _ _ _ _ _ Ec). cbn [build_calls build_step pr_builder].
    unfold cpp_builder_finish. cbn [ow_owners ow_builder].
    assert (length l = buffer_count t) as Ll by apply O2.
    rewrite (finalize_none t code (Owned b l) _ _ _ F1 O2).
    2:{ intros i Hi. apply in_seq in Hi. destruct t; cbn [ow_owners] in Hi; lia. }
    cbn [obind]. change (0 =? 0) with true. cbn match. cbn [ow_builder ow_owners]. rewrite Ho. cbn [obind]. rewrite app_nil_r, Ll.
    split; [|split; [exact F'|split]].
    - repeat f_equal. cbn [pr_arrays]. do 2 f_equal. unfold kept. rewrite <- Ll. apply (owned_who l _ 0). intros j Hj. destruct O2 as (_ & O2).
      specialize (O2 j ltac:(lia)). unfold last_given. cbn [Nat.add].
      replace (fold_left _ calls None) with (fold_left (fun acc call => gives (fun _ => acc) call j) calls None) by reflexivity.
      destruct (nth j l None); [destruct O2 as (O2 & _)|]; exact O2.
    - apply Forall_app. split; [|constructor; [reflexivity|constructor]]. eapply Forall_impl; [|exact Hrs]. intros r ->. reflexivity.
    - unfold arrays_of. rewrite flat_map_app. cbn. replace (flat_map _ rs) with (@nil arrow_array); [reflexivity|].
      clear -Hrs. induction Hrs as [|r rs -> _ IH]; [reflexivity|]. cbn. exact IH.
  Qed.

  Lemma batches_ok t code : kind_ok t -> In code (type_codes t) -> forall batches p s,
    filling t code (ow_builder s) (fun _ => []) (fun _ => false) -> ow_owners s = repeat None (buffer_count t) -> pr_builder p = Some s ->
    Forall (fun batch => fills_all (fun _ => []) (fst batch) (snd batch) /\ ops_wf (buffer_count t) (fun _ => false) (snd batch) /\
                         fits t (ops_validity (snd batch)) (ops_buffers t (snd batch))) batches ->
    exists s' freed rs, build_calls junk p (flat_map batch_calls batches) =
        Ok (Program (Some s') (pr_arrays p ++ map (fun batch => Some (kept (buffer_count t) (fst batch))) batches) (pr_freed p ++ freed), rs) /\
      ow_owners s' = repeat None (buffer_count t) /\ Forall (fun r => fst r = 0) rs /\
      arrays_of rs = map (fun batch => assembled t (ops_validity (snd batch)) (ops_buffers t (snd batch))) batches.
  Proof.
    intros Hok Hin. induction batches as [|[calls ops] batches IH]; intros p s F Hn Eb H.
    - exists s, [], []. cbn. rewrite !app_nil_r. destruct p. cbn in *. subst. repeat split; auto.
    - inversion H as [|? ? (Hf & Hw & Hfit) Hr]; subst. cbn [fst snd] in *.
      destruct (batch_ok t code calls ops p s Hok Hin F Hn Eb Hf Hw Hfit) as (b' & freed & rs & E & F' & Hrs & Ha).
      destruct (IH (Program (Some (Owned b' (repeat None (buffer_count t)))) (pr_arrays p ++ [Some (kept (buffer_count t) calls)]) (pr_freed p ++ freed))
        (Owned b' (repeat None (buffer_count t))) F' eq_refl eq_refl Hr) as (s' & freed' & rs' & E' & Hn' & Hrs' & Ha').
      exists s', (freed ++ freed'), (rs ++ rs'). cbn [flat_map]. unfold batch_calls at 1. cbn [fst].
      rewrite (calls_app _ _ _ _ _ E), E'. cbn [obind pr_arrays pr_freed map fst snd]. rewrite <- !app_assoc. cbn [app].
      split; [reflexivity|]. split; [exact Hn'|]. split; [apply Forall_app; auto|]. unfold arrays_of in *. rewrite flat_map_app, Ha, Ha'. reflexivity.
  Qed.

  Lemma session_arrays t code batches : kind_ok t -> In code (type_codes t) ->
    Forall (fun batch => fills_all (fun _ => []) (fst batch) (snd batch) /\ ops_wf (buffer_count t) (fun _ => false) (snd batch) /\
                         fits t (ops_validity (snd batch)) (ops_buffers t (snd batch))) batches ->
    exists p rs, build_session junk code (flat_map (fun batch => fst batch ++ [BFinish]) batches) = Ok (p, rs) /\
      Forall (fun r => fst r = 0) rs /\
      arrays_of rs = map (fun batch => assembled t (ops_validity (snd batch)) (ops_buffers t (snd batch))) batches /\
      pr_arrays p = map (fun batch => Some (kept (buffer_count t) (fst batch))) batches /\
      Permutation (flat_map (fun batch => given_objects (fst batch)) batches) (pr_freed p ++ flat_map (fun batch => kept (buffer_count t) (fst batch)) batches).
  Proof.
    intros Hok Hin H. destruct (init_ok t code Hok Hin) as (b0 & E0). pose proof (init_filling junk junk_bytes t code b0 Hok Hin E0) as F.
    assert (new_builder code = Ok (Owned b0 (repeat None (buffer_count t)))) as En.
    { unfold new_builder. rewrite E0. cbn [obind]. rewrite (fi_len _ _ _ _ _ F). reflexivity. }
    destruct (batches_ok t code Hok Hin batches (Program (Some (Owned b0 (repeat None (buffer_count t)))) [] []) (Owned b0 (repeat None (buffer_count t))) F eq_refl eq_refl H) as (s' & freed & rs & E & Hn & Hrs & Ha).
    assert (build_session junk code (flat_map batch_calls batches) =
      Ok (Program (Some s') (map (fun batch => Some (kept (buffer_count t) (fst batch))) batches) freed, rs)) as Es.
    { unfold build_session. rewrite En. cbn [obind]. exact E. }
    eexists. eexists. split; [exact Es|]. split; [exact Hrs|]. split; [exact Ha|]. split; [reflexivity|].
    destruct (session_intact _ _ _ _ Es) as (_ & P). cbn [pr_freed pr_builder pr_arrays held] in *. rewrite Hn, owned_none in P. cbn [app] in P.
    assert (forall l : list (list build_call * list bop), given_objects (flat_map batch_calls l) = flat_map (fun batch => given_objects (fst batch)) l) as Hg.
    { induction l as [|[c o] l IH]; [reflexivity|]. cbn [flat_map]. rewrite <- IH. unfold given_objects, batch_calls. cbn [fst]. rewrite !flat_map_app. cbn. rewrite app_nil_r. reflexivity. }
    rewrite Hg in P. rewrite P. apply Permutation_app_head.
    clear. induction batches as [|x l IH]; [apply Permutation_refl|]. cbn. apply Permutation_app_head. exact IH.
  Qed.
End Junk.
