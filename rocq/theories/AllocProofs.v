(** * Proofs about the memory that objects hold *)
From Coq Require Import Permutation Lia.
From Verif Require Import Base TypesModel BufferModel BuilderModel OwnedModel AllocModel AllocSpec.
Local Open Scope Z_scope.

Definition Inv (h : heap) (own : list nat) : Prop :=
  NoDup own /\ Permutation (h_live h) own /\ Forall (fun b => (b < h_next h)%nat) own.

Definition post {A} (m : outcome A) (Q : A -> Prop) : Prop := match m with Ok x => Q x | _ => False end.
Lemma post_bind {A B} (m : outcome A) (k : A -> outcome B) Q : post m (fun x => post (k x) Q) -> post (obind m k) Q.
Proof. destruct m; cbn; auto. Qed.
Lemma post_mono {A} (m : outcome A) (P Q : A -> Prop) : post m P -> (forall x, P x -> Q x) -> post m Q.
Proof. destruct m; cbn; auto. Qed.

Ltac perm := apply (Permutation_count_occ Nat.eq_dec); let x := fresh "x" in intros x;
  repeat (rewrite ?count_occ_app; cbn [count_occ app concat blocks flat_map option_blocks]); repeat match goal with |- context [Nat.eq_dec ?a ?b] => destruct (Nat.eq_dec a b) end; lia.

Lemma inv_perm h own own' : Inv h own -> Permutation own own' -> Inv h own'.
Proof.
  intros (N & P & F) Q. split; [exact (Permutation_NoDup Q N)|]. split; [now rewrite P|].
  rewrite Forall_forall in *. intros b B. apply F. now rewrite Q.
Qed.
Ltac inv H := eapply (inv_perm _ _ _ H); perm.

Section Proofs.
  Variable fails : purpose -> nat -> bool.

  Lemma alloc_inv p h own : Inv h own ->
    match alloc fails p h with
    | (Some b, h') => Inv h' (b :: own)
    | (None, h') => Inv h' own /\ ~ always fails p
    end.
  Proof.
    intros (N & P & F). unfold alloc. destruct (fails p (h_next h)) eqn:E.
    - split; [|intros A; now rewrite A in E]. repeat split; auto. cbn. eapply Forall_impl; [|exact F]. cbn. lia.
    - rewrite Forall_forall in F. repeat split; cbn.
      + constructor; auto. intros B. specialize (F _ B). cbn in F. lia.
      + now constructor.
      + constructor; [lia|]. rewrite Forall_forall. intros b B. specialize (F _ B). cbn in F. lia.
  Qed.

  Lemma live_in h own b : Inv h own -> In b own -> is_live b h = true.
  Proof.
    intros (_ & P & _) B. unfold is_live. apply existsb_exists. exists b. split; [|apply Nat.eqb_refl]. now rewrite P.
  Qed.
  Lemma remove_perm b l own : NoDup (b :: own) -> Permutation l (b :: own) -> Permutation (remove Nat.eq_dec b l) own.
  Proof.
    intros N P. inversion N as [|x0 l0 B N']; subst.
    apply NoDup_Permutation; auto.
    - assert (NoDup l) as Nl by (eapply Permutation_NoDup; [symmetry; exact P|exact N]).
      clear -Nl. induction Nl as [|x l X Nl IH]; cbn; [constructor|]. destruct (Nat.eq_dec b x); auto. constructor; auto.
      intros I. apply X. now apply in_remove in I.
    - intros x. split.
      + intros I. apply in_remove in I as [I NE]. rewrite P in I. destruct I; congruence.
      + intros I. apply in_in_remove; [congruence|]. rewrite P. now right.
  Qed.
  Lemma free_inv b h own : Inv h (b :: own) -> post (free b h) (fun h' => Inv h' own).
  Proof.
    intros I. unfold free. rewrite (live_in h (b :: own)) by (auto; now left). cbn. destruct I as (N & P & F).
    inversion N; subst. inversion F; subst. repeat split; cbn; auto. now apply remove_perm.
  Qed.
  Lemma free_all_inv bs : forall h own, Inv h (bs ++ own) -> post (free_all bs h) (fun h' => Inv h' own).
  Proof.
    induction bs as [|b bs IH]; intros h own I; cbn [free_all]; [exact I|].
    apply post_bind. eapply post_mono; [exact (free_inv b h (bs ++ own) I)|]. intros h' I'. now apply IH.
  Qed.
  Lemma use_inv b h own : Inv h own -> In b own -> use (Some b) h = Ok h.
  Proof. intros I B. cbn. now rewrite (live_in h own b I B). Qed.

  (** ** Buffers *)
  Lemma grow_inv p h F : Inv h (blocks p ++ F) ->
    post (grow fails p h) (fun r => let '(p', code, h') := r in
      (code = 0 /\ (exists b, p' = Some b) /\ Inv h' (blocks p' ++ F)) \/
      (code = ENOMEM /\ p' = None /\ Inv h' (blocks p ++ F) /\ ~ always fails ForBuffer)).
  Proof.
    intros I. unfold grow. pose proof (alloc_inv ForBuffer h _ I) as A. destruct (alloc fails ForBuffer h) as [[b|] h'].
    - apply post_bind. eapply post_mono; [apply (free_all_inv (blocks p) h' (b :: F)); inv A|].
      intros h'' I''. left. split; [reflexivity|]. split; [eauto|]. exact I''.
    - right. destruct A. auto.
  Qed.
  Lemma append_inv p full h F : Inv h (blocks p ++ F) ->
    post (append fails p full h) (fun r => let '(p', code, h') := r in
      (code = 0 /\ (exists b, p' = Some b) /\ Inv h' (blocks p' ++ F)) \/
      (code = ENOMEM /\ p' = None /\ Inv h' (blocks p ++ F) /\ ~ always fails ForBuffer)).
  Proof.
    intros I. unfold append. destruct (full || match p with None => true | _ => false end)%bool eqn:E; [now apply grow_inv|].
    destruct p as [b|]; [|rewrite Bool.orb_true_r in E; discriminate].
    rewrite (use_inv b h _ I) by now left. cbn. left. eauto.
  Qed.

  Lemma nth_split i (ps : list (option nat)) : (i < length ps)%nat -> exists rest,
    Permutation (flat_map blocks ps) (blocks (nth i ps None) ++ rest) /\
    forall p, Permutation (flat_map blocks (set_nth i p ps)) (blocks p ++ rest).
  Proof.
    revert i. induction ps as [|q ps IH]; intros i L; [cbn in L; lia|]. destruct i as [|i].
    - exists (flat_map blocks ps). split; [reflexivity|]. intros p. reflexivity.
    - destruct (IH i) as (rest & P & Q); [cbn in L; lia|]. exists (blocks q ++ rest). split.
      + cbn [flat_map nth]. rewrite P. perm.
      + intros p. cbn [flat_map set_nth]. rewrite Q. perm.
  Qed.
  Lemma length_set {A} i (x : A) l : length (set_nth i x l) = length l.
  Proof. revert i. induction l as [|y l IH]; intros [|i]; cbn; auto. Qed.

  (** What a call leaves behind: [L1] is lost, and nothing is lost if [C] *)
  Definition after (C : Prop) (h : heap) (own : list nat) (ok : list nat -> Prop) (L F : list nat) : Prop :=
    exists L1, Inv h (own ++ (L1 ++ L) ++ F) /\ ok (L1 ++ L) /\ (C -> L1 = []).
  Lemma after_nothing (C : Prop) h own (ok : list nat -> Prop) L F : Inv h (own ++ L ++ F) -> ok L -> after C h own ok L F.
  Proof. intros I O. exists []. auto. Qed.

  Lemma after_after (C1 C2 C : Prop) h own ok L1 L F : after C2 h own ok (L1 ++ L) F -> (C1 -> L1 = []) -> (C -> C1 /\ C2) -> after C h own ok L F.
  Proof.
    intros (L2 & I2 & O2 & T2) T1 W. exists (L2 ++ L1). rewrite <- (app_assoc L2 L1 L). split; [exact I2|]. split; [exact O2|].
    intros c. destruct (W c). now rewrite T1, T2.
  Qed.
  Lemma after_mono (C C' : Prop) h own own' (ok ok' : list nat -> Prop) L F F' : after C h own ok L F ->
    (forall L', Permutation (own ++ L' ++ F) (own' ++ L' ++ F')) -> (forall L', incl L L' -> ok L' -> ok' L') -> (C' -> C) -> after C' h own' ok' L F'.
  Proof.
    intros (L1 & I1 & O1 & T1) P O W. exists L1. split; [eapply inv_perm; [exact I1|apply P]|]. split; [|auto].
    apply O; [now apply incl_appr, incl_refl|exact O1].
  Qed.

  Definition tame : Prop := always fails ForBuffer /\ always fails ForSchema.

  Lemma append_at_inv ps i full h L F : (i < length ps)%nat -> Inv h (flat_map blocks ps ++ L ++ F) ->
    post (append_at fails ps i full h) (fun r => let '(ps', code, h') := r in
      after tame h' (flat_map blocks ps') (fun _ => length ps' = length ps /\ (code = 0 \/ code = ENOMEM)) L F).
  Proof.
    intros Li I. destruct (nth_split i ps Li) as (rest & P & Q). unfold append_at. apply post_bind.
    eapply post_mono; [apply (append_inv (nth i ps None) full h (rest ++ L ++ F))|].
    - eapply inv_perm; [exact I|]. rewrite P. perm.
    - intros [[p code] h'] [(-> & _ & I')|(-> & -> & I' & N)]; cbn.
      + exists []. split; [|split; [split; [apply length_set|auto]|reflexivity]]. eapply inv_perm; [exact I'|]. rewrite (Q p). perm.
      + exists (blocks (nth i ps None)). split; [|split; [split; [apply length_set|auto]|intros T; destruct N; apply T]].
        eapply inv_perm; [exact I'|]. rewrite (Q None). perm.
  Qed.

  Lemma appends_inv ops : forall ps h L F, Inv h (flat_map blocks ps ++ L ++ F) ->
    post (appends fails ps ops h) (fun r => let '(ps', code, h') := r in
      after tame h' (flat_map blocks ps') (fun _ => length ps' = length ps) L F).
  Proof.
    induction ops as [|[i full] ops IH]; intros ps h L F I; cbn [appends].
    - now apply after_nothing.
    - destruct (Nat.ltb_spec i (length ps)) as [Li|Li]; [|now apply after_nothing].
      apply post_bind. eapply post_mono; [apply (append_at_inv ps i full h L F Li I)|].
      intros [[ps' code] h'] (L1 & I1 & (Len & Code) & T1). destruct Code as [->| ->]; cbn [Z.eqb].
      + eapply post_mono; [apply (IH ps' h' (L1 ++ L) F I1)|]. intros [[ps2 code] h2] (L2 & I2 & Len2 & T2).
        exists (L2 ++ L1). split; [inv I2|]. split; [congruence|]. intros T. now rewrite T1, T2.
      + cbn. exists L1. auto.
  Qed.

  (** ** Arrays and schemas *)
  Definition kept (p p' : option nat) : Prop := match p with Some b => p' = Some b | None => True end.
  Lemma kept_all ps : Forall2 kept ps ps.
  Proof. induction ps as [|[b|] ps IH]; constructor; cbn; auto. Qed.

  Lemma finalize_inv ps : forall h F, Inv h (flat_map blocks ps ++ F) ->
    post (finalize fails ps h) (fun r => let '(ps', code, h') := r in
      Inv h' (flat_map blocks ps' ++ F) /\ Forall2 kept ps ps' /\ (code = 0 \/ ~ always fails ForBuffer)).
  Proof.
    induction ps as [|[b|] ps IH]; intros h F I; cbn [finalize].
    - cbn. auto.
    - apply post_bind. eapply post_mono; [apply (IH h ([b] ++ F)); inv I|].
      intros [[ps' code] h'] (I1 & K & C). cbn [post flat_map blocks]. split; [inv I1|]. split; [now constructor|exact C].
    - apply post_bind. eapply post_mono; [apply (grow_inv None h (flat_map blocks ps ++ F)); inv I|].
      intros [[p code] h'] [(-> & _ & I')|(-> & -> & I' & N)].
      + cbn [Z.eqb]. apply post_bind. eapply post_mono; [apply (IH h' (blocks p ++ F)); inv I'|].
        intros [[ps' code] h2] (I1 & K & C). cbn [post flat_map]. split; [inv I1|]. split; [now constructor|exact C].
      + cbn. split; [inv I'|]. split; [constructor; [exact Logic.I|apply kept_all]|now right].
  Qed.
  Lemma finalize_array_inv a h F : Inv h (array_blocks a ++ F) ->
    post (finalize_array fails a h) (fun r => let '(a', code, h') := r in
      Inv h' (array_blocks a' ++ F) /\ Forall2 kept (am_bufs a) (am_bufs a') /\ (code = 0 \/ ~ always fails ForBuffer)).
  Proof.
    intros I. unfold finalize_array, array_blocks in *. destruct (am_bufs a) as [|p ps] eqn:E; [cbn; rewrite E; cbn; auto|].
    apply post_bind. cbn [flat_map] in I. eapply post_mono; [apply (finalize_inv ps h (am_block a :: blocks p ++ F)); inv I|].
    intros [[ps' code] h'] (I1 & K & C). cbn [post am_block am_bufs flat_map]. split; [inv I1|]. split; [|exact C].
    constructor; [destruct p; reflexivity|exact K].
  Qed.

  Lemma make_schema_inv clean n : forall made h L F, Inv h (made ++ L ++ F) ->
    post (make_schema fails clean n made h) (fun r => let '(sc, h') := r in
      after (always fails ForSchema \/ clean = true) h' (match sc with Some bs => bs | None => [] end) (fun _ => True) L F).
  Proof.
    induction n as [|n IH]; intros made h L F I; cbn [make_schema].
    - now apply after_nothing.
    - pose proof (alloc_inv ForSchema h _ I) as A. destruct (alloc fails ForSchema h) as [[b|] h'].
      + apply IH. exact A.
      + destruct A as [A N]. destruct clean.
        * apply post_bind. eapply post_mono; [apply (free_all_inv made h' _ A)|]. intros h2 I2. now apply after_nothing.
        * cbn. exists made. split; [inv A|]. split; [exact Logic.I|]. intros [T|T]; [now destruct N|discriminate].
  Qed.

  (** ** Geometries *)

  (** A pointer to the memory of a buffer, or to memory that was lost *)
  Definition points_to (L : list nat) (v p : option nat) : Prop :=
    match v with None => True | Some b => p = Some b \/ In b L end.
  Lemma points_more L L' v p : points_to L v p -> incl L L' -> points_to L' v p.
  Proof. unfold points_to. destruct v; auto. intros [|H] I; auto. Qed.
  Lemma points_self L p : points_to L p p.
  Proof. destruct p; cbn; auto. Qed.
  Lemma points_in L v b own : points_to L (Some v) b -> incl (blocks b) own -> In v (own ++ L).
  Proof. intros [->|H] I; apply in_or_app; auto. left. apply I. now left. Qed.

  Definition geom_ok (g : geom_mem) (L : list nat) : Prop := points_to L (gm_root g) (gm_nodes g) /\ points_to L (gm_points g) (gm_coords g).
  Lemma geom_ok_more g L L' : geom_ok g L -> incl L L' -> geom_ok g L'.
  Proof. intros [A B] I. split; eapply points_more; eauto. Qed.

  Lemma geometry_init_inv h L F : Inv h (L ++ F) ->
    let '(g, h') := geometry_init fails h in
    Inv h' (option_blocks geom_blocks g ++ L ++ F) /\ match g with Some g => geom_ok g L | None => ~ always fails ForObject end.
  Proof.
    intros I. unfold geometry_init. pose proof (alloc_inv ForObject h _ I) as A. destruct (alloc fails ForObject h) as [[b|] h']; auto.
    split; [exact A|]. split; exact Logic.I.
  Qed.
  Lemma geometry_reset_inv g h F : Inv h (geom_blocks g ++ F) -> post (geometry_reset g h) (fun h' => Inv h' F).
  Proof.
    intros I. unfold geometry_reset, geom_blocks in *.
    apply post_bind. eapply post_mono; [apply (free_all_inv _ h (gm_private g :: blocks (gm_nodes g) ++ F)); inv I|]. intros h1 I1.
    apply post_bind. eapply post_mono; [apply (free_all_inv _ h1 (gm_private g :: F)); inv I1|]. intros h2 I2.
    now apply free_inv.
  Qed.
  Lemma append_node_inv g full h L F : Inv h (geom_blocks g ++ L ++ F) -> geom_ok g L ->
    post (geometry_append_node fails g full h) (fun r => let '(g', code, h') := r in after tame h' (geom_blocks g') (geom_ok g') L F).
  Proof.
    intros I [R P]. unfold geometry_append_node, geom_blocks in *.
    destruct (full || match gm_root g with None => true | _ => false end)%bool eqn:E.
    - apply post_bind. eapply post_mono; [apply (grow_inv (gm_nodes g) h (gm_private g :: blocks (gm_coords g) ++ L ++ F)); inv I|].
      intros [[p code] h'] [(-> & _ & I')|(-> & -> & I' & N)]; cbn.
      + apply after_nothing; cbn; [inv I'|]. split; cbn; [apply points_self|exact P].
      + exists (blocks (gm_nodes g)). cbn [gm_private gm_nodes gm_coords]. split; [cbn [blocks]; inv I'|].
        split; [|intros T; destruct N; apply T]. split; cbn.
        * unfold points_to in *. destruct (gm_root g); auto. right. apply in_or_app. destruct R as [->|R]; auto. left. now left.
        * eapply points_more; [exact P|]. now apply incl_appr.
    - destruct (gm_root g) as [b|] eqn:Er; [|rewrite Bool.orb_true_r in E; discriminate].
      rewrite (use_inv b h _ I).
      + cbn. apply after_nothing; [exact I|]. split; [now rewrite Er|exact P].
      + destruct R as [->|R]; [right; now left|]. apply in_or_app. right. apply in_or_app. auto.
  Qed.
  Lemma append_nodes_inv fulls : forall g h L F, Inv h (geom_blocks g ++ L ++ F) -> geom_ok g L ->
    post (geometry_append_nodes fails g fulls h) (fun r => let '(g', code, h') := r in after tame h' (geom_blocks g') (geom_ok g') L F).
  Proof.
    induction fulls as [|full fulls IH]; intros g h L F I O; cbn [geometry_append_nodes]; [now apply after_nothing|].
    apply post_bind. eapply post_mono; [apply (append_node_inv g full h L F I O)|].
    intros [[g' code] h'] (L1 & I1 & O1 & T1). destruct (code =? 0).
    - eapply post_mono; [apply (IH g' h' (L1 ++ L) F I1 O1)|]. intros [[g2 code2] h2] A.
      eapply after_after; [exact A|exact T1|auto].
    - exists L1. auto.
  Qed.
  Lemma reserve_coords_inv g full h L F : Inv h (geom_blocks g ++ L ++ F) -> geom_ok g L ->
    post (geometry_reserve_coords fails g full h) (fun r => let '(g', code, h') := r in after tame h' (geom_blocks g') (geom_ok g') L F).
  Proof.
    intros I [R P]. unfold geometry_reserve_coords, geom_blocks in *.
    destruct (full || match gm_coords g with None => true | _ => false end)%bool eqn:E.
    - apply post_bind. eapply post_mono; [apply (grow_inv None h ((gm_private g :: blocks (gm_nodes g) ++ blocks (gm_coords g)) ++ L ++ F)); inv I|].
      intros [[p code] h'] [(-> & _ & I')|(-> & -> & I' & N)]; cbn [Z.eqb].
      + assert (match gm_coords g with Some _ => use (gm_coords g) h' | None => Ok h' end = Ok h') as ->.
        { destruct (gm_coords g) as [c|]; [|reflexivity]. apply (use_inv c h' _ I').
          apply in_or_app. right. apply in_or_app. left. right. apply in_or_app. right. now left. }
        cbn [obind]. apply post_bind.
        eapply post_mono; [apply (free_all_inv (blocks (gm_coords g)) h' ((gm_private g :: blocks (gm_nodes g) ++ blocks p) ++ L ++ F)); inv I'|].
        intros h2 I2. apply after_nothing; cbn; [exact I2|]. split; cbn; [exact R|apply points_self].
      + cbn. apply after_nothing; [exact I'|]. now split.
    - destruct (gm_coords g) as [b|] eqn:Er; [|rewrite Bool.orb_true_r in E; discriminate].
      rewrite (use_inv b h _ I) by (apply in_or_app; left; right; apply in_or_app; right; now left).
      cbn. apply after_nothing; [exact I|]. split; [exact R|apply points_self].
  Qed.
  Lemma deep_copy_inv g fc fn h L F : always fails ForBuffer -> Inv h (geom_blocks g ++ L ++ F) -> geom_ok g L ->
    post (geometry_deep_copy fails g fc fn h) (fun r => let '(g', code, h') := r in after tame h' (geom_blocks g') (geom_ok g') L F).
  Proof.
    intros B I [R P]. unfold geometry_deep_copy, geom_blocks in *. apply post_bind.
    eapply post_mono; [apply (append_inv (gm_coords g) fc h (gm_private g :: blocks (gm_nodes g) ++ L ++ F)); inv I|].
    intros [[c code] h'] [(-> & _ & I')|(-> & -> & I' & N)]; [|now destruct N]. cbn [Z.eqb gm_nodes gm_private]. apply post_bind.
    eapply post_mono; [apply (append_inv (gm_nodes g) fn h' (gm_private g :: blocks c ++ L ++ F)); inv I'|].
    intros [[n code] h2] [(-> & _ & I2)|(-> & -> & I2 & N)]; [|now destruct N]. cbn.
    apply after_nothing; cbn; [inv I2|]. split; apply points_self.
  Qed.
  Lemma geometry_visit_inv g h L F : Inv h (geom_blocks g ++ L ++ F) -> geom_ok g L -> geometry_visit g h = Ok h.
  Proof.
    intros I [R P]. unfold geometry_visit. destruct (gm_root g) as [b|]; [|reflexivity].
    rewrite (use_inv b h _ I).
    - cbn. destruct (gm_points g) as [c|]; [|reflexivity]. apply (use_inv c h _ I).
      unfold geom_blocks. destruct P as [->|P]; [right; apply in_or_app; left; apply in_or_app; right; now left|].
      apply in_or_app. right. apply in_or_app. auto.
    - unfold geom_blocks. destruct R as [->|R]; [right; now left|]. apply in_or_app. right. apply in_or_app. auto.
  Qed.

  (** ** Readers *)
  Definition reader_ok (r : reader_mem) (L : list nat) : Prop := match rm_parser r with Some (WkbParser _ g) => geom_ok g L | _ => True end.
  Lemma reader_ok_more r L L' : reader_ok r L -> incl L L' -> reader_ok r L'.
  Proof. unfold reader_ok. destruct (rm_parser r) as [[]|]; auto. apply geom_ok_more. Qed.

  Lemma reader_init_inv kind h L F : Inv h (L ++ F) ->
    post (array_reader_init fails kind h) (fun r => let '(r, code, h') := r in
      Inv h' (option_blocks reader_blocks r ++ L ++ F) /\
      match r with Some r => code = 0 /\ reader_ok r L | None => code <> 0 end).
  Proof.
    intros I. unfold array_reader_init. pose proof (alloc_inv ForObject h _ I) as A. destruct (alloc fails ForObject h) as [[b|] h1].
    2: { destruct A. cbn. split; [assumption|discriminate]. }
    assert (forall (m : outcome (option parser * heap)), post m (fun r => let '(p, h') := r in
               Inv h' (option_blocks parser_blocks p ++ (b :: L ++ F)) /\ match p with Some (WkbParser _ g) => geom_ok g L | _ => True end) ->
             post (do (p, h2) <- m; match p with
                   | Some p => Ok (Some (ReaderMem b (Some p)), 0, h2)
                   | None => do h3 <- free b h2; Ok (None, ENOMEM, h3) end)
               (fun r => let '(r, code, h') := r in
                  Inv h' (option_blocks reader_blocks r ++ L ++ F) /\ match r with Some r => code = 0 /\ reader_ok r L | None => code <> 0 end)) as K.
    { intros m M. apply post_bind. eapply post_mono; [exact M|]. intros [[p|] h2] [I2 O2]; cbn.
      - split; [|split; [reflexivity|exact O2]]. cbn in I2. inv I2.
      - cbn in I2. apply post_bind. eapply post_mono; [apply (free_inv b h2 _ I2)|]. intros h3 I3. cbn. split; [exact I3|discriminate]. }
    destruct kind.
    - apply K. unfold wkt_reader_init. pose proof (alloc_inv ForObject h1 _ A) as A2. destruct (alloc fails ForObject h1) as [[c|] h2]; cbn; auto.
      destruct A2; auto.
    - apply K. unfold wkb_reader_init. pose proof (alloc_inv ForObject h1 _ A) as A2. destruct (alloc fails ForObject h1) as [[c|] h2]; cbn.
      2: { destruct A2; auto. }
      pose proof (geometry_init_inv h2 L (c :: b :: F)) as G. destruct (geometry_init fails h2) as [[g|] h3]; cbn.
      + destruct G as [G O]; [inv A2|]. split; [cbn in G |- *; inv G|exact O].
      + apply post_bind. destruct G as [G _]; [inv A2|]. cbn in G. eapply post_mono; [apply (free_inv c h3 (b :: L ++ F)); inv G|].
        intros h4 I4. cbn. auto.
    - cbn. split; [exact A|]. split; [reflexivity|exact Logic.I].
    - apply post_bind. eapply post_mono; [apply (free_inv b h1 _ A)|]. intros h2 I2. cbn. split; [exact I2|discriminate].
  Qed.
  Lemma reader_reset_inv r h F : Inv h (reader_blocks r ++ F) -> post (array_reader_reset r h) (fun h' => Inv h' F).
  Proof.
    intros I. unfold array_reader_reset, reader_blocks in *. apply post_bind.
    assert (post (match rm_parser r with Some p => parser_reset p h | None => Ok h end) (fun h' => Inv h' (rm_private r :: F))) as P.
    { destruct (rm_parser r) as [[b|b g]|]; cbn [parser_reset parser_blocks] in *.
      - apply (free_inv b h (rm_private r :: F)). inv I.
      - apply post_bind. eapply post_mono; [apply (geometry_reset_inv g h (b :: rm_private r :: F)); inv I|]. intros h1 I1. now apply free_inv.
      - exact I. }
    eapply post_mono; [exact P|]. intros h1 I1. now apply free_inv.
  Qed.
  Lemma reader_visit_inv r reads h L F : Inv h (reader_blocks r ++ L ++ F) -> reader_ok r L ->
    post (array_reader_visit fails r reads h) (fun x => let '(r', code, h') := x in after tame h' (reader_blocks r') (reader_ok r') L F).
  Proof.
    intros I O. unfold array_reader_visit, reader_ok, reader_blocks in *. destruct (rm_parser r) as [[b|b g]|] eqn:E; try (apply after_nothing; cbn; rewrite E; auto).
    apply post_bind. cbn [parser_blocks] in I. eapply post_mono; [apply (append_nodes_inv reads g h L (rm_private r :: b :: F)); [inv I|exact O]|].
    intros [[g' code] h'] (L1 & I1 & O1 & T1). exists L1. cbn [rm_private rm_parser parser_blocks]. split; [inv I1|]. auto.
  Qed.

  (** ** Writers *)
  Definition plain_ok (w : plain_mem) : Prop := length (pm_bufs w) = 3%nat.

  Lemma plain_init_inv h L F : Inv h (L ++ F) ->
    let '(w, h') := plain_init fails h in
    Inv h' (option_blocks plain_blocks w ++ L ++ F) /\ match w with Some w => plain_ok w | None => True end.
  Proof.
    intros I. unfold plain_init. pose proof (alloc_inv ForObject h _ I) as A. destruct (alloc fails ForObject h) as [[b|] h'].
    - split; [exact A|reflexivity].
    - now destruct A.
  Qed.
  Lemma plain_append_inv w ops h L F : Inv h (plain_blocks w ++ L ++ F) -> plain_ok w ->
    post (plain_append fails w ops h) (fun r => let '(w', code, h') := r in after tame h' (plain_blocks w') (fun _ => plain_ok w') L F).
  Proof.
    intros I O. unfold plain_append, plain_blocks in *. apply post_bind.
    eapply post_mono; [apply (appends_inv ops (pm_bufs w) h L (pm_private w :: F)); inv I|].
    intros [[ps code] h'] A. cbn [post pm_private pm_bufs]. eapply after_mono; [exact A| | |auto].
    - intros L'. perm.
    - cbn. unfold plain_ok in *. cbn. congruence.
  Qed.
  Lemma plain_reset_inv w h F : Inv h (plain_blocks w ++ F) -> post (plain_reset w h) (fun h' => Inv h' F).
  Proof.
    intros I. unfold plain_reset, plain_blocks in *. apply post_bind.
    eapply post_mono; [apply (free_all_inv _ h (pm_private w :: F)); inv I|]. intros h1 I1. now apply free_inv.
  Qed.

  Lemma none_blocks n : flat_map blocks (repeat None n) = [].
  Proof. induction n; auto. Qed.
  Lemma new_array_inv n h F : Inv h F ->
    let '(a, h') := new_array fails n h in
    match a with Some a => am_bufs a = repeat None n /\ Inv h' (am_block a :: F) | None => Inv h' F /\ ~ always fails ForArray end.
  Proof.
    intros I. unfold new_array. pose proof (alloc_inv ForArray h _ I) as A. destruct (alloc fails ForArray h) as [[b|] h']; cbn; auto.
  Qed.

  Lemma plain_finish_inv w refused full h L F : Inv h (plain_blocks w ++ L ++ F) -> plain_ok w ->
    post (plain_finish fails w refused full h) (fun r => let '(a, w', code, h') := r in
      after tame h' (option_blocks array_blocks a ++ plain_blocks w') (fun _ => plain_ok w') L F).
  Proof.
    intros I O. unfold plain_finish. destruct refused; [now apply after_nothing|]. unfold plain_blocks in *. apply post_bind.
    eapply post_mono; [apply (append_at_inv (pm_bufs w) 1 full h L (pm_private w :: F)); [rewrite O; lia|inv I]|].
    intros [[ps code] h1] (L1 & I1 & (Len & Code) & T1). unfold plain_ok in *. rewrite O in Len.
    destruct Code as [->| ->]; cbn [Z.eqb ENOMEM].
    2: { exists L1. cbn [option_blocks pm_private pm_bufs app]. split; [inv I1|]. auto. }
    pose proof (new_array_inv 3 h1 _ I1) as A. destruct (new_array fails 3 h1) as [[a|] h2].
    2: { destruct A as [I2 _]. exists L1. cbn [option_blocks pm_private pm_bufs app]. split; [inv I2|]. auto. }
    destruct A as [_ I2]. apply post_bind.
    eapply post_mono; [apply (finalize_array_inv (ArrayMem (am_block a) ps) h2 (pm_private w :: L1 ++ L ++ F)); unfold array_blocks; cbn [am_block am_bufs]; inv I2|].
    intros [[a' code] h3] (I3 & K & C). cbn [post pm_private pm_bufs]. rewrite none_blocks. destruct (Z.eqb_spec code 0) as [->|Nz].
    - exists L1. cbn [option_blocks]. split; [inv I3|]. auto.
    - exists (array_blocks a' ++ L1). cbn [option_blocks]. split; [inv I3|]. split; [reflexivity|]. intros T. destruct C as [C|C]; [easy|]. destruct C. apply T.
  Qed.

  Hypothesis arrays : always fails ForArray.

  Definition builder_ok (b : builder_mem) (L : list nat) : Prop :=
    match bm_array b with Some a => Forall2 (points_to L) (bm_view b) (am_bufs a) | None => False end.
  Lemma views_more L L' vs ps : Forall2 (points_to L) vs ps -> incl L L' -> Forall2 (points_to L') vs ps.
  Proof. intros V I. induction V; constructor; auto. eapply points_more; eauto. Qed.
  Lemma builder_ok_more b L L' : builder_ok b L -> incl L L' -> builder_ok b L'.
  Proof. unfold builder_ok. destruct (bm_array b); auto. apply views_more. Qed.
  Lemma views_length L vs ps : Forall2 (points_to L) vs ps -> length vs = length ps.
  Proof. induction 1; cbn; auto. Qed.
  Lemma views_none L n : Forall2 (points_to L) (repeat None n) (repeat None n).
  Proof. induction n; constructor; cbn; auto. Qed.
  Lemma views_set L i v p vs ps : Forall2 (points_to L) vs ps -> points_to L v p -> Forall2 (points_to L) (set_nth i v vs) (set_nth i p ps).
  Proof. intros V P. revert i. induction V as [|v0 p0 vs ps A V IH]; intros [|i]; cbn; constructor; auto. Qed.
  Lemma views_lost L i vs ps : Forall2 (points_to L) vs ps -> Forall2 (points_to (blocks (nth i ps None) ++ L)) vs (set_nth i None ps).
  Proof.
    intros V. revert i. induction V as [|v0 p0 vs ps A V IH]; intros [|i]; cbn; try constructor.
    - destruct v0 as [b|]; cbn in *; auto. right. apply in_or_app. destruct A as [->|A]; auto. left. now left.
    - eapply views_more; [exact V|]. now apply incl_appr.
    - eapply points_more; [exact A|]. now apply incl_appr.
    - apply IH.
  Qed.
  Lemma views_kept L vs : forall ps ps', Forall2 (points_to L) vs ps -> Forall2 kept ps ps' -> Forall2 (points_to L) vs ps'.
  Proof.
    induction vs as [|v vs IH]; intros ps ps' V K; inversion V; subst; inversion K; subst; constructor; eauto.
    destruct v; cbn in *; auto. destruct H1 as [->|H1]; auto.
  Qed.
  Lemma views_live L vs ps i v : Forall2 (points_to L) vs ps -> nth_error vs i = Some (Some v) -> In v (flat_map blocks ps ++ L).
  Proof.
    intros V. revert i. induction V as [|v0 p0 vs ps A V IH]; intros [|i] E; cbn in E; try discriminate.
    - injection E as ->. destruct A as [->|A]; cbn; auto. apply in_or_app. auto.
    - cbn. rewrite <- app_assoc. apply in_or_app. right. eauto.
  Qed.

  Lemma builder_init_inv n s h L F : Inv h (L ++ F) ->
    post (builder_init_mem fails n s h) (fun r => let '(b, h') := r in
      after tame h' (option_blocks builder_blocks b) (fun L' => match b with Some b => builder_ok b L' | None => True end) L F).
  Proof.
    intros I. unfold builder_init_mem. pose proof (alloc_inv ForObject h _ I) as A. destruct (alloc fails ForObject h) as [[b|] h1].
    2: { destruct A. now apply after_nothing. }
    apply post_bind. eapply post_mono; [apply (make_schema_inv false s [] h1 L (b :: F)); inv A|].
    intros [sc h2] (L1 & I2 & _ & T1). destruct sc as [sc|].
    - pose proof (new_array_inv n h2 _ I2) as A2. destruct (new_array fails n h2) as [[a|] h3]; [|now destruct A2 as [_ []]].
      destruct A2 as [Ea I3]. exists L1.
      unfold option_blocks, builder_blocks. cbn [bm_private bm_schema bm_array]. unfold array_blocks. rewrite Ea, none_blocks.
      split; [inv I3|]. split; [|intros [_ T]; auto]. unfold builder_ok. cbn. rewrite Ea. apply views_none.
    - apply post_bind. eapply post_mono; [apply (free_inv b h2 (L1 ++ L ++ F)); inv I2|]. intros h3 I3. exists L1.
      split; [inv I3|]. split; [exact Logic.I|]. intros [_ T]; auto.
  Qed.
  Lemma builder_append_inv b i full h L F : Inv h (builder_blocks b ++ L ++ F) -> builder_ok b L ->
    post (builder_append_mem fails b i full h) (fun r => let '(b', code, h') := r in after tame h' (builder_blocks b') (builder_ok b') L F).
  Proof.
    intros I O. unfold builder_append_mem. destruct (nth_error (bm_view b) i) as [v|] eqn:Ev; [|now apply after_nothing].
    pose proof O as O'. unfold builder_ok in O. destruct (bm_array b) as [a|] eqn:Ea; [|destruct O].
    unfold builder_blocks in I. rewrite Ea in I. unfold array_blocks in I.
    destruct (full || match v with None => true | _ => false end)%bool eqn:E.
    - assert (i < length (am_bufs a))%nat as Li.
      { rewrite <- (views_length _ _ _ O). apply nth_error_Some. congruence. }
      destruct (nth_split i (am_bufs a) Li) as (rest & P & Q). apply post_bind.
      eapply post_mono; [apply (grow_inv (nth i (am_bufs a) None) h (bm_private b :: bm_schema b ++ am_block a :: rest ++ L ++ F))|].
      { eapply inv_perm; [exact I|]. rewrite P. perm. }
      intros [[p code] h'] [(-> & _ & I')|(-> & -> & I' & N)]; cbn [Z.eqb post ENOMEM].
      + apply after_nothing.
        * unfold builder_blocks, array_blocks. cbn [bm_private bm_schema bm_array am_block am_bufs]. eapply inv_perm; [exact I'|]. rewrite (Q p). perm.
        * unfold builder_ok. cbn. apply views_set; [exact O|apply points_self].
      + exists (blocks (nth i (am_bufs a) None)). split; [|split; [|intros T; destruct N; apply T]].
        * unfold builder_blocks, array_blocks. cbn [bm_private bm_schema bm_array am_block am_bufs]. eapply inv_perm; [exact I'|]. rewrite (Q None). perm.
        * unfold builder_ok. cbn. now apply views_lost.
    - destruct v as [v|]; [|rewrite Bool.orb_true_r in E; discriminate]. rewrite (use_inv v h _ I).
      + cbn. apply after_nothing; [|exact O']. unfold builder_blocks, array_blocks. rewrite Ea. exact I.
      + pose proof (views_live _ _ _ _ _ O Ev) as V. rewrite in_app_iff in V. cbn [app In]. rewrite !in_app_iff. cbn [In]. rewrite ?in_app_iff. tauto.
  Qed.
  Lemma builder_reset_inv b h L F : Inv h (builder_blocks b ++ F) -> builder_ok b L -> post (builder_reset_mem b h) (fun h' => Inv h' F).
  Proof.
    intros I O. unfold builder_reset_mem, builder_blocks, builder_ok in *. destruct (bm_array b) as [a|]; [|destruct O].
    apply post_bind. eapply post_mono; [apply (free_all_inv _ h (bm_private b :: array_blocks a ++ F)); inv I|]. intros h1 I1.
    apply post_bind. eapply post_mono; [apply (free_all_inv _ h1 (bm_private b :: F)); inv I1|]. intros h2 I2. now apply free_inv.
  Qed.
  Lemma builder_finish_inv b refused h L F : Inv h (builder_blocks b ++ L ++ F) -> builder_ok b L ->
    post (builder_finish_mem fails b refused h) (fun r => let '(a, b', code, h') := r in
      Inv h' (option_blocks array_blocks a ++ builder_blocks b' ++ L ++ F) /\ builder_ok b' L).
  Proof.
    intros I O. unfold builder_finish_mem, builder_blocks, builder_ok in *. destruct (bm_array b) as [a|]; [|destruct O].
    apply post_bind. eapply post_mono; [apply (finalize_array_inv a h (bm_private b :: bm_schema b ++ L ++ F)); inv I|].
    intros [[a' code] h1] (I1 & K & C). cbn [bm_private bm_schema bm_array bm_view]. pose proof (views_kept _ _ _ _ O K) as O'.
    destruct (negb (code =? 0)); [|destruct refused].
    1, 2: cbn [post bm_array bm_private bm_schema bm_view]; split; [inv I1|exact O'].
    pose proof (new_array_inv (length (bm_view b)) h1 _ I1) as A. destruct (new_array fails (length (bm_view b)) h1) as [[a2|] h2]; [|now destruct A as [_ []]].
    destruct A as [Ea I2]. cbn [post bm_array bm_private bm_schema bm_view option_blocks]. unfold array_blocks in *. rewrite Ea, none_blocks.
    split; [inv I2|apply views_none].
  Qed.

  Definition native_ok (w : native_mem) (L : list nat) : Prop := builder_ok (nm_builder w) L.

  Lemma first_offsets_inv n : forall b i h L F, Inv h (builder_blocks b ++ L ++ F) -> builder_ok b L ->
    post (first_offsets fails b i n h) (fun r => let '(b', code, h') := r in after tame h' (builder_blocks b') (builder_ok b') L F).
  Proof.
    induction n as [|n IH]; intros b i h L F I O; cbn [first_offsets]; [now apply after_nothing|]. apply post_bind.
    eapply post_mono; [apply (builder_append_inv b i true h L F I O)|]. intros [[b' code] h'] (L1 & I1 & O1 & T1). destruct (code =? 0).
    - eapply post_mono; [apply (IH b' (S i) h' (L1 ++ L) F I1 O1)|]. intros [[b2 code2] h2] A. eapply after_after; [exact A|exact T1|auto].
    - exists L1. auto.
  Qed.
  Lemma native_reset_inv w h L F : Inv h (native_blocks w ++ F) -> native_ok w L -> post (native_reset w h) (fun h' => Inv h' F).
  Proof.
    intros I O. unfold native_reset, native_blocks, native_ok in *.
    apply post_bind. eapply post_mono; [apply (builder_reset_inv (nm_builder w) h L (nm_private w :: blocks (nm_validity w) ++ F)); [inv I|exact O]|]. intros h1 I1.
    apply post_bind. eapply post_mono; [apply (free_all_inv _ h1 (nm_private w :: F)); inv I1|]. intros h2 I2. now apply free_inv.
  Qed.
  Lemma native_init_inv n offsets s h L F : Inv h (L ++ F) ->
    post (native_init fails n offsets s h) (fun r => let '(w, code, h') := r in
      after tame h' (option_blocks native_blocks w) (fun L' => match w with Some w => code = 0 /\ native_ok w L' | None => code <> 0 end) L F).
  Proof.
    intros I. unfold native_init. pose proof (alloc_inv ForObject h _ I) as A. destruct (alloc fails ForObject h) as [[p|] h1].
    2: { destruct A. apply after_nothing; [assumption|discriminate]. }
    apply post_bind. eapply post_mono; [apply (builder_init_inv n s h1 L (p :: F)); inv A|].
    intros [[b|] h2] (L1 & I2 & O2 & T1).
    - apply post_bind. cbn [option_blocks] in I2. eapply post_mono; [apply (first_offsets_inv offsets b 1 h2 (L1 ++ L) (p :: F)); auto|].
      intros [[b' code] h3] A3. destruct (Z.eqb_spec code 0) as [->|Nz].
      + apply (after_after tame tame tame _ _ _ L1); [|exact T1|auto]. eapply after_mono; [exact A3| | |intros T; exact T].
        * intros L'. unfold option_blocks, native_blocks. cbn [nm_private nm_builder nm_validity blocks]. perm.
        * intros L' _ B. split; [reflexivity|exact B].
      + destruct A3 as (L2 & I3 & O3 & T2). apply post_bind.
        eapply post_mono; [apply (native_reset_inv (NativeMem p b' None offsets) h3 (L2 ++ L1 ++ L) ((L2 ++ L1 ++ L) ++ F)); [|exact O3]|].
        { unfold native_blocks. cbn [nm_private nm_builder nm_validity blocks]. inv I3. }
        intros h4 I4. exists (L2 ++ L1). cbn [option_blocks]. split; [inv I4|]. split; [exact Nz|]. intros T. now rewrite T1, T2.
    - apply post_bind. eapply post_mono; [apply (free_inv p h2 (L1 ++ L ++ F)); inv I2|]. intros h3 I3. exists L1.
      split; [inv I3|]. split; [discriminate|exact T1].
  Qed.
  Lemma native_append1_inv w i full h L F : Inv h (native_blocks w ++ L ++ F) -> native_ok w L ->
    post (native_append1 fails w i full h) (fun r => let '(w', code, h') := r in after tame h' (native_blocks w') (native_ok w') L F).
  Proof.
    intros I O. unfold native_append1, native_blocks in *. destruct i as [|i]; apply post_bind.
    - eapply post_mono; [apply (append_inv (nm_validity w) full h (nm_private w :: builder_blocks (nm_builder w) ++ L ++ F)); inv I|].
      intros [[p code] h'] [(-> & _ & I')|(-> & -> & I' & N)]; cbn [post nm_private nm_builder nm_validity].
      + apply after_nothing; [inv I'|exact O].
      + exists (blocks (nm_validity w)). split; [inv I'|]. split; [|intros T; destruct N; apply T].
        eapply builder_ok_more; [exact O|]. now apply incl_appr.
    - eapply post_mono; [apply (builder_append_inv (nm_builder w) (S i) full h L (nm_private w :: blocks (nm_validity w) ++ F)); [inv I|exact O]|].
      intros [[b code] h'] A. cbn [post nm_private nm_builder nm_validity]. eapply after_mono; [exact A| | |auto].
      + intros L'. perm.
      + intros L' _ B. exact B.
  Qed.
  Lemma native_append_inv ops : forall w h L F, Inv h (native_blocks w ++ L ++ F) -> native_ok w L ->
    post (native_append fails w ops h) (fun r => let '(w', code, h') := r in after tame h' (native_blocks w') (native_ok w') L F).
  Proof.
    induction ops as [|[i full] ops IH]; intros w h L F I O; cbn [native_append]; [now apply after_nothing|]. apply post_bind.
    eapply post_mono; [apply (native_append1_inv w i full h L F I O)|]. intros [[w' code] h'] (L1 & I1 & O1 & T1). destruct (code =? 0).
    - eapply post_mono; [apply (IH w' h' (L1 ++ L) F I1 O1)|]. intros [[w2 code2] h2] A. eapply after_after; [exact A|exact T1|auto].
    - exists L1. auto.
  Qed.
  Lemma native_finish_inv w refused full h L F : Inv h (native_blocks w ++ L ++ F) -> native_ok w L ->
    post (native_finish fails w refused full h) (fun r => let '(a, w', code, h') := r in
      after tame h' (option_blocks array_blocks a ++ native_blocks w') (native_ok w') L F).
  Proof.
    intros I O. unfold native_finish, native_blocks, native_ok in *. apply post_bind.
    assert (post (match nm_validity w with
                  | Some _ => do h <- use (nm_validity w) h; builder_append_mem fails (nm_builder w) 0 full h
                  | None => Ok (nm_builder w, 0, h)
                  end) (fun r => let '(b, code, h') := r in
                          after tame h' (builder_blocks b) (builder_ok b) L (nm_private w :: blocks (nm_validity w) ++ F))) as B.
    { destruct (nm_validity w) as [v|] eqn:Ev.
      - rewrite (use_inv v h _ I) by (right; apply in_or_app; left; apply in_or_app; right; now left). cbn [obind].
        apply builder_append_inv; [inv I|exact O].
      - apply after_nothing; [inv I|exact O]. }
    eapply post_mono; [exact B|]. intros [[b code] h1] (L1 & I1 & O1 & T1). destruct (negb (code =? 0)).
    { exists L1. cbn [option_blocks nm_private nm_builder nm_validity app]. split; [inv I1|]. auto. }
    apply post_bind. eapply post_mono; [apply (builder_finish_inv b refused h1 (L1 ++ L) _ I1 O1)|].
    intros [[[a b'] code'] h2] [I2 O2]. destruct a as [a|].
    - cbn [option_blocks] in I2. apply post_bind.
      eapply post_mono; [apply (first_offsets_inv (nm_offsets w) b' 1 h2 (L1 ++ L) (array_blocks a ++ nm_private w :: blocks (nm_validity w) ++ F)); [inv I2|exact O2]|].
      intros [[b2 code2] h3] (L2 & I3 & O3 & T2). destruct (code2 =? 0).
      + exists (L2 ++ L1). cbn [option_blocks nm_private nm_builder nm_validity]. split; [inv I3|].
        split; [now rewrite <- app_assoc|]. intros T. now rewrite T1, T2.
      + apply post_bind. eapply post_mono; [apply (free_all_inv (array_blocks a) h3 (builder_blocks b2 ++ (L2 ++ L1 ++ L) ++ nm_private w :: blocks (nm_validity w) ++ F)); inv I3|].
        intros h4 I4. exists (L2 ++ L1). cbn [option_blocks nm_private nm_builder nm_validity app]. split; [inv I4|].
        split; [now rewrite <- app_assoc|]. intros T. now rewrite T1, T2.
    - exists L1. cbn [option_blocks nm_private nm_builder nm_validity app] in *. split; [inv I2|]. auto.
  Qed.

  Definition writer_ok (w : writer_mem) (L : list nat) : Prop :=
    match wm_inner w with PlainWriter w => plain_ok w | NativeWriter w => native_ok w L end.
  Lemma writer_ok_more w L L' : writer_ok w L -> incl L L' -> writer_ok w L'.
  Proof. unfold writer_ok. destruct (wm_inner w); auto. apply builder_ok_more. Qed.

  Lemma writer_init_inv t h L F : Inv h (L ++ F) ->
    post (array_writer_init fails t h) (fun r => let '(w, code, h') := r in
      after (tame /\ t <> AsUnsupported) h' (option_blocks writer_blocks w)
        (fun L' => match w with Some w => code = 0 /\ writer_ok w L' | None => code <> 0 end) L F).
  Proof.
    intros I. unfold array_writer_init. pose proof (alloc_inv ForObject h _ I) as A. destruct (alloc fails ForObject h) as [[b|] h1].
    2: { destruct A. apply after_nothing; [assumption|discriminate]. }
    destruct t as [| |n offsets s|].
    - pose proof (plain_init_inv h1 L (b :: F)) as P. destruct (plain_init fails h1) as [[w|] h2].
      + destruct P as [P O]; [inv A|]. apply after_nothing; [|now split]. unfold option_blocks, writer_blocks in *. cbn [wm_private wm_inner inner_blocks]. inv P.
      + apply post_bind. destruct P as [P O]; [inv A|]. eapply post_mono; [apply (free_inv b h2 (L ++ F)); inv P|].
        intros h3 I3. apply after_nothing; [exact I3|discriminate].
    - exists [b]. split; [inv A|]. split; [discriminate|now intros [_ []]].
    - apply post_bind. eapply post_mono; [apply (native_init_inv n offsets s h1 L (b :: F)); inv A|].
      intros [[[w|] code] h2] (L1 & I2 & O2 & T1).
      + exists L1. unfold option_blocks, writer_blocks in *. cbn [wm_private wm_inner inner_blocks]. split; [inv I2|]. split; [split; [reflexivity|apply O2]|]. intros [T _]; auto.
      + apply post_bind. eapply post_mono; [apply (free_inv b h2 (L1 ++ L ++ F)); inv I2|]. intros h3 I3. exists L1.
        split; [inv I3|]. split; [exact O2|]. intros [T _]; auto.
    - apply post_bind. eapply post_mono; [apply (free_inv b h1 _ A)|]. intros h2 I2. apply after_nothing; [exact I2|discriminate].
  Qed.
  Lemma writer_append_inv w ops h L F : Inv h (writer_blocks w ++ L ++ F) -> writer_ok w L ->
    post (array_writer_append fails w ops h) (fun r => let '(w', code, h') := r in after tame h' (writer_blocks w') (writer_ok w') L F).
  Proof.
    intros I O. unfold array_writer_append, writer_blocks, writer_ok in *. destruct (wm_inner w) as [p|p]; cbn [inner_blocks] in I; apply post_bind.
    - eapply post_mono; [apply (plain_append_inv p ops h L (wm_private w :: F)); [inv I|exact O]|].
      intros [[p' code] h'] A. cbn [post wm_private wm_inner inner_blocks]. eapply after_mono; [exact A|intros L'; perm|auto|auto].
    - eapply post_mono; [apply (native_append_inv ops p h L (wm_private w :: F)); [inv I|exact O]|].
      intros [[p' code] h'] A. cbn [post wm_private wm_inner inner_blocks]. eapply after_mono; [exact A|intros L'; perm|auto|auto].
  Qed.
  Lemma writer_finish_inv w refused full h L F : Inv h (writer_blocks w ++ L ++ F) -> writer_ok w L ->
    post (array_writer_finish fails w refused full h) (fun r => let '(a, w', code, h') := r in
      after tame h' (option_blocks array_blocks a ++ writer_blocks w') (writer_ok w') L F).
  Proof.
    intros I O. unfold array_writer_finish, writer_blocks, writer_ok in *. destruct (wm_inner w) as [p|p]; cbn [inner_blocks] in I; apply post_bind.
    - eapply post_mono; [apply (plain_finish_inv p refused full h L (wm_private w :: F)); [inv I|exact O]|].
      intros [[[a p'] code] h'] A. cbn [post wm_private wm_inner inner_blocks]. eapply after_mono; [exact A|intros L'; perm|auto|auto].
    - eapply post_mono; [apply (native_finish_inv p refused full h L (wm_private w :: F)); [inv I|exact O]|].
      intros [[[a p'] code] h'] A. cbn [post wm_private wm_inner inner_blocks]. eapply after_mono; [exact A|intros L'; perm|auto|auto].
  Qed.
  Lemma writer_reset_inv w h L F : Inv h (writer_blocks w ++ F) -> writer_ok w L -> post (array_writer_reset w h) (fun h' => Inv h' F).
  Proof.
    intros I O. unfold array_writer_reset, writer_blocks, writer_ok in *. apply post_bind. destruct (wm_inner w) as [p|p]; cbn [inner_blocks] in I.
    - eapply post_mono; [apply (plain_reset_inv p h (wm_private w :: F)); inv I|]. intros h1 I1. now apply free_inv.
    - eapply post_mono; [apply (native_reset_inv p h L (wm_private w :: F)); [inv I|exact O]|]. intros h1 I1. now apply free_inv.
  Qed.

  (** ** Kernels *)
  Definition opt_ok {A} (ok : A -> list nat -> Prop) (o : option A) (L : list nat) : Prop := match o with Some x => ok x L | None => True end.
  Definition visits (name : kernel_name) : bool := match name with Void | VoidAgg => false | _ => true end.
  Record kernel_ok (k : kernel_mem) (L : list nat) : Prop := {
    k_reader : opt_ok reader_ok (km_reader k) L;
    k_writer : opt_ok writer_ok (km_writer k) L;
    k_wkt : opt_ok (fun w _ => plain_ok w) (km_wkt k) L;
    k_box : length (km_box k) = 5%nat;
    k_has_wkt : km_name k = FormatWkt -> km_wkt k <> None;
    k_has_reader : km_started k = true -> visits (km_name k) = true -> km_reader k <> None;
    k_has_writer : km_started k = true -> km_name k = AsGeoarrow -> km_writer k <> None }.
  Lemma kernel_ok_more k L L' : kernel_ok k L -> incl L L' -> kernel_ok k L'.
  Proof.
    intros [] I. constructor; auto; unfold opt_ok in *.
    - destruct (km_reader k); auto. eapply reader_ok_more; eauto.
    - destruct (km_writer k); auto. eapply writer_ok_more; eauto.
  Qed.

  Lemma kernel_init_inv name h L F : Inv h (L ++ F) ->
    post (kernel_init fails name h) (fun r => let '(k, code, h') := r in
      Inv h' (option_blocks kernel_blocks k ++ L ++ F) /\ opt_ok kernel_ok k L /\ opt_ok (fun k _ => km_reader k = None /\ km_started k = false) k L).
  Proof.
    intros I. unfold kernel_init.
    assert (forall b, name <> FormatWkt -> kernel_ok (KernelMem name b None None None (repeat None 5) false) L) as K.
    { intros b N. constructor; cbn; auto; try discriminate. }
    assert (forall b w, plain_ok w -> kernel_ok (KernelMem name b None None (Some w) (repeat None 5) false) L) as K'.
    { intros b w O. constructor; cbn; auto; try discriminate. }
    pose proof (alloc_inv ForObject h _ I) as A.
    destruct name; try (cbn; split; [exact I|]; split; [now apply K|split; reflexivity]).
    all: destruct (alloc fails ForObject h) as [[b|] h1]; [|destruct A; cbn; auto].
    all: try (cbn; split; [exact A|]; split; [now apply K|split; reflexivity]).
    pose proof (plain_init_inv h1 (b :: L) F A) as P. destruct (plain_init fails h1) as [[w|] h2]; destruct P as [P O].
    - cbn [post]. unfold option_blocks, kernel_blocks in *. cbn [km_private km_reader km_writer km_wkt km_box repeat].
      split; [inv P|]. split; [now apply K'|split; reflexivity].
    - apply post_bind. eapply post_mono; [apply (free_inv b h2 (L ++ F)); inv P|]. intros h3 I3. cbn. auto.
  Qed.
  Lemma kernel_release_inv k h L F : Inv h (kernel_blocks k ++ F) -> kernel_ok k L -> post (kernel_release k h) (fun h' => Inv h' F).
  Proof.
    intros I [R W P _ _ _ _]. unfold kernel_release, kernel_blocks in *. apply post_bind.
    assert (post (match km_reader k with Some r => array_reader_reset r h | None => Ok h end)
              (fun h' => Inv h' (blocks (km_private k) ++ option_blocks writer_blocks (km_writer k) ++ option_blocks plain_blocks (km_wkt k) ++ flat_map blocks (km_box k) ++ F))) as A.
    { destruct (km_reader k) as [r|]; cbn [option_blocks] in I; [apply reader_reset_inv|]; inv I. }
    eapply post_mono; [exact A|]. intros h1 I1. apply post_bind.
    assert (post (match km_writer k with Some r => array_writer_reset r h1 | None => Ok h1 end)
              (fun h' => Inv h' (blocks (km_private k) ++ option_blocks plain_blocks (km_wkt k) ++ flat_map blocks (km_box k) ++ F))) as B.
    { destruct (km_writer k) as [r|]; cbn [option_blocks] in I1; [eapply writer_reset_inv; [|exact W]|]; inv I1. }
    eapply post_mono; [exact B|]. intros h2 I2. apply post_bind.
    assert (post (match km_wkt k with Some r => plain_reset r h2 | None => Ok h2 end)
              (fun h' => Inv h' (blocks (km_private k) ++ flat_map blocks (km_box k) ++ F))) as D.
    { destruct (km_wkt k) as [r|]; cbn [option_blocks] in I2; [eapply plain_reset_inv|]; inv I2. }
    eapply post_mono; [exact D|]. intros h3 I3. apply post_bind.
    eapply post_mono; [apply (free_all_inv _ h3 (blocks (km_private k) ++ F)); inv I3|]. intros h4 I4. now apply free_all_inv.
  Qed.

  Definition out_blocks (sc : option (list nat)) : list nat := option_blocks (fun bs => bs) sc.
  Lemma kernel_out_inv clean s k h L F : Inv h (kernel_blocks k ++ L ++ F) -> kernel_ok k L ->
    (visits (km_name k) = true -> km_reader k <> None) -> (km_name k = AsGeoarrow -> km_writer k <> None) ->
    post (do (sc, h) <- make_schema fails clean s [] h;
          match sc with
          | Some sc => Ok (Some sc, KernelMem (km_name k) (km_private k) (km_reader k) (km_writer k) (km_wkt k) (km_box k) true, 0, h)
          | None => Ok (None, k, ENOMEM, h)
          end) (fun r => let '(sc, k', code, h') := r in after tame h' (out_blocks sc ++ kernel_blocks k') (kernel_ok k') L F).
  Proof.
    intros I O HR HW. apply post_bind. eapply post_mono; [apply (make_schema_inv clean s [] h L (kernel_blocks k ++ F)); inv I|].
    intros [[sc|] h'] (L1 & I1 & _ & T1); cbn [post].
    - exists L1. unfold out_blocks, option_blocks, kernel_blocks in *. cbn [km_private km_reader km_writer km_wkt km_box]. split; [inv I1|].
      split; [|intros [_ T]; auto]. destruct (kernel_ok_more k L (L1 ++ L) O) as [A B C D E G H]; [now apply incl_appr, incl_refl|]. constructor; auto.
    - exists L1. unfold out_blocks, option_blocks in *. split; [inv I1|]. split; [|intros [_ T]; auto].
      eapply kernel_ok_more; [exact O|]. now apply incl_appr, incl_refl.
  Qed.

  Lemma kernel_start_inv k kind refused t s h L F : Inv h (kernel_blocks k ++ L ++ F) -> kernel_ok k L ->
    post (kernel_start fails k kind refused t s h) (fun r => let '(sc, k', code, h') := r in
      after (tame /\ km_reader k = None /\ t <> AsUnsupported) h' (out_blocks sc ++ kernel_blocks k') (kernel_ok k') L F).
  Proof.
    intros I O. unfold kernel_start. destruct (visits (km_name k)) eqn:V.
    2: { assert (post (do (sc, h) <- make_schema fails true s [] h;
          match sc with
          | Some sc => Ok (Some sc, KernelMem (km_name k) (km_private k) (km_reader k) (km_writer k) (km_wkt k) (km_box k) true, 0, h)
          | None => Ok (None, k, ENOMEM, h)
          end) (fun r => let '(sc, k', code, h') := r in
            after (tame /\ km_reader k = None /\ t <> AsUnsupported) h' (out_blocks sc ++ kernel_blocks k') (kernel_ok k') L F)) as K.
         { eapply post_mono; [apply (kernel_out_inv true s k h L F I O); [congruence|intros E; rewrite E in V; discriminate]|].
           intros [[[sc k'] code] h'] A. eapply after_mono; [exact A|reflexivity|auto|tauto]. }
         cbv zeta. destruct (km_name k); try discriminate; exact K. }
    set (m := do (r, code, h) <- array_reader_init fails kind h; _).
    match goal with |- post ?g _ => assert (g = m) as -> by (destruct (km_name k); try discriminate; reflexivity) end.
    unfold m. clear m. apply post_bind. eapply post_mono; [apply (reader_init_inv kind h L (kernel_blocks k ++ F)); inv I|].
    intros [[r code] h1] [I1 R1]. destruct (Z.eqb_spec code 0) as [->|Nz]; cbn [negb].
    2: { destruct r; [now destruct R1|]. apply after_nothing; [cbn [option_blocks out_blocks app] in *; inv I1|exact O]. }
    destruct r as [r|]; [|easy]. destruct R1 as [_ R1]. cbv zeta.
    set (k1 := KernelMem (km_name k) (km_private k) (Some r) (km_writer k) (km_wkt k) (km_box k) (km_started k)).
    (* the reader that was there is lost *)
    set (lost := option_blocks reader_blocks (km_reader k)).
    assert (Inv h1 (kernel_blocks k1 ++ (lost ++ L) ++ F)) as I2.
    { unfold kernel_blocks, k1, lost in *. cbn [km_private km_reader km_writer km_wkt km_box option_blocks] in *. inv I1. }
    assert (kernel_ok k1 (lost ++ L)) as O2.
    { destruct (kernel_ok_more k L (lost ++ L) O) as [A B C D E G H]; [now apply incl_appr, incl_refl|]. constructor; auto; cbn; [|discriminate].
      eapply reader_ok_more; [exact R1|]. now apply incl_appr, incl_refl. }
    assert (km_reader k = None -> lost = []) as T1 by (unfold lost; now intros ->).
    clearbody lost. clear I1 I.
    destruct refused.
    { exists lost. unfold out_blocks. cbn [option_blocks app]. split; [exact I2|]. split; [exact O2|]. tauto. }
    assert (forall clean, km_name k1 <> AsGeoarrow ->
      post (do (sc, h) <- make_schema fails clean s [] h1;
          match sc with
          | Some sc => Ok (Some sc, KernelMem (km_name k1) (km_private k1) (km_reader k1) (km_writer k1) (km_wkt k1) (km_box k1) true, 0, h)
          | None => Ok (None, k1, ENOMEM, h)
          end) (fun r => let '(sc, k', code, h') := r in
            after (tame /\ km_reader k = None /\ t <> AsUnsupported) h' (out_blocks sc ++ kernel_blocks k') (kernel_ok k') L F)) as K.
    { intros clean N. eapply post_mono; [apply (kernel_out_inv clean s k1 h1 (lost ++ L) F I2 O2); [discriminate|contradiction]|].
      intros [[[sc k'] code] h'] A. eapply after_after; [exact A|exact T1|tauto]. }
    change (km_name k) with (km_name k1). destruct (km_name k1) eqn:En; try discriminate V; try (apply K; discriminate).
    clear K. destruct (km_writer k1) as [w|] eqn:Ew.
    { exists lost. unfold out_blocks. cbn [option_blocks app]. split; [exact I2|]. split; [exact O2|]. tauto. }
    apply post_bind. eapply post_mono; [apply (writer_init_inv t h1 (lost ++ L) (kernel_blocks k1 ++ F)); inv I2|].
    intros [[w code] h2] (L1 & I3 & W3 & T3). destruct (Z.eqb_spec code 0) as [->|Nz]; cbn [negb].
    2: { destruct w; [now destruct W3|]. exists (L1 ++ lost). unfold out_blocks. cbn [option_blocks app] in *. split; [inv I3|]. split.
         - eapply kernel_ok_more; [exact O2|]. intros x X. rewrite <- app_assoc. now apply in_or_app; right.
         - intros (T & E & N). now rewrite T1, T3. }
    destruct w as [w|]; [|easy]. destruct W3 as [_ W3].
    set (k2 := KernelMem AsGeoarrow (km_private k1) (km_reader k1) (Some w) (km_wkt k1) (km_box k1) (km_started k1)).
    eapply post_mono; [apply (kernel_out_inv false s k2 h2 (L1 ++ lost ++ L) F)|].
    - unfold kernel_blocks in *. rewrite Ew in I3. unfold k2. cbn [km_private km_reader km_writer km_wkt km_box option_blocks] in *. inv I3.
    - destruct (kernel_ok_more k1 _ (L1 ++ lost ++ L) O2) as [A B C D E G H]; [now apply incl_appr, incl_refl|]. constructor; auto; cbn; discriminate.
    - discriminate.
    - discriminate.
    - intros [[[sc k'] code] h'] A.
      assert (after (tame /\ t <> AsUnsupported) h' (out_blocks sc ++ kernel_blocks k') (kernel_ok k') (lost ++ L) F) as A'.
      { eapply after_after; [exact A|exact T3|tauto]. }
      eapply after_after; [exact A'|exact T1|tauto].
  Qed.

  Lemma box_finish_inv k nulls h L F : Inv h (kernel_blocks k ++ L ++ F) -> kernel_ok k L ->
    post (box_finish_mem fails k nulls h) (fun r => let '(a, k', code, h') := r in
      after tame h' (option_blocks array_blocks a ++ kernel_blocks k') (kernel_ok k') L F).
  Proof.
    intros I O. unfold box_finish_mem. pose proof (new_array_inv 5 h _ I) as A. destruct (new_array fails 5 h) as [[a|] h1]; [|now destruct A as [_ []]].
    destruct A as [_ I1]. assert (length (km_box k) = 5%nat) as Len by apply O. destruct (km_box k) as [|bitmap ps] eqn:Eb; [discriminate|]. cbn [nth tl].
    set (k' := KernelMem (km_name k) (km_private k) (km_reader k) (km_writer k) (km_wkt k) (repeat None 5) (km_started k)).
    assert (kernel_ok k' L) as O' by (destruct O; constructor; auto).
    unfold kernel_blocks in I1. rewrite Eb in I1. apply post_bind.
    eapply (post_mono _ (fun h' => Inv h' (array_blocks (ArrayMem (am_block a) ((if nulls then bitmap else None) :: ps)) ++ kernel_blocks k' ++ L ++ F))).
    { unfold array_blocks, kernel_blocks, k'. cbn [am_block am_bufs km_private km_reader km_writer km_wkt km_box repeat]. destruct nulls; [inv I1|].
      apply free_all_inv. inv I1. }
    intros h2 I2. apply post_bind. eapply post_mono; [apply (finalize_array_inv _ h2 _ I2)|].
    intros [[a' code] h3] (I3 & _ & _). cbv zeta. destruct (code =? 0).
    - apply after_nothing; [cbn [option_blocks]; inv I3|exact O'].
    - apply post_bind. eapply post_mono; [apply (free_all_inv _ h3 _ I3)|]. intros h4 I4. now apply after_nothing.
  Qed.

  Lemma appends_box_inv k ops h L F : Inv h (kernel_blocks k ++ L ++ F) -> kernel_ok k L ->
    post (appends fails (km_box k) ops h) (fun r => let '(ps, code, h') := r in
      after tame h' (kernel_blocks (with_box k ps)) (kernel_ok (with_box k ps)) L F).
  Proof.
    intros I O. unfold kernel_blocks in I.
    eapply post_mono; [apply (appends_inv ops (km_box k) h L (blocks (km_private k) ++ option_blocks reader_blocks (km_reader k) ++ option_blocks writer_blocks (km_writer k) ++
      option_blocks plain_blocks (km_wkt k) ++ F)); inv I|].
    intros [[ps code] h'] A. eapply after_mono; [exact A| | |auto].
    - intros L'. unfold kernel_blocks, with_box. cbn [km_private km_reader km_writer km_wkt km_box]. perm.
    - intros L' I' Len. destruct (kernel_ok_more k L L' O I') as [A1 B C D E G H]. constructor; auto. cbn. congruence.
  Qed.

  Lemma kernel_push_inv k reads ops failed refused full nulls h L F : Inv h (kernel_blocks k ++ L ++ F) -> kernel_ok k L -> km_started k = true ->
    post (kernel_push_batch fails k reads ops failed refused full nulls h) (fun r => let '(a, k', code, h') := r in
      after tame h' (option_blocks array_blocks a ++ kernel_blocks k') (kernel_ok k') L F).
  Proof.
    intros I O S. unfold kernel_push_batch. destruct (visits (km_name k)) eqn:V.
    2: { assert (km_name k = Void \/ km_name k = VoidAgg) as [E|E] by (destruct (km_name k); auto; discriminate); rewrite E.
         - pose proof (new_array_inv 0 h _ I) as A. destruct (new_array fails 0 h) as [[a|] h1]; [|now destruct A as [_ []]].
           destruct A as [Ea I1]. apply after_nothing; [|exact O]. unfold option_blocks, array_blocks. rewrite Ea. cbn [repeat flat_map]. inv I1.
         - now apply after_nothing. }
    match goal with |- post ?g _ => assert (g = visitor_push_batch fails k reads ops failed refused full nulls h) as ->
      by (destruct (km_name k); try discriminate; reflexivity) end.
    unfold visitor_push_batch. destruct (km_reader k) as [r|] eqn:Er; [|now destruct (k_has_reader k L O S V)].
    apply post_bind. unfold kernel_blocks in I. rewrite Er in I. cbn [option_blocks] in I.
    eapply post_mono; [apply (reader_visit_inv r reads h L (blocks (km_private k) ++ option_blocks writer_blocks (km_writer k) ++ option_blocks plain_blocks (km_wkt k) ++
        flat_map blocks (km_box k) ++ F)); [inv I|]|].
    { pose proof (k_reader k L O) as R. now rewrite Er in R. }
    intros [[r' code] h1] (L1 & I1 & R1 & T1). cbv zeta.
    set (k1 := KernelMem (km_name k) (km_private k) (Some r') (km_writer k) (km_wkt k) (km_box k) (km_started k)).
    assert (Inv h1 (kernel_blocks k1 ++ (L1 ++ L) ++ F)) as I2.
    { unfold kernel_blocks, k1. cbn [km_private km_reader km_writer km_wkt km_box option_blocks]. inv I1. }
    assert (kernel_ok k1 (L1 ++ L)) as O2.
    { destruct (kernel_ok_more k L (L1 ++ L) O) as [A B C D E G H]; [now apply incl_appr, incl_refl|]. constructor; auto. cbn. discriminate. }
    destruct (negb (code =? 0)); [exists L1; auto|].
    assert (forall a k' h', after tame h' (option_blocks array_blocks a ++ kernel_blocks k') (kernel_ok k') (L1 ++ L) F ->
                            after tame h' (option_blocks array_blocks a ++ kernel_blocks k') (kernel_ok k') L F) as K.
    { intros a k' h' A. eapply after_after; [exact A|exact T1|auto]. }
    assert (forall k' h', after tame h' (kernel_blocks k') (kernel_ok k') (L1 ++ L) F ->
                            after tame h' (option_blocks array_blocks None ++ kernel_blocks k') (kernel_ok k') L F) as KN.
    { intros k' h' A. apply K. exact A. }
    change (km_name k) with (km_name k1). destruct (km_name k1) eqn:En; try discriminate V.
    all: try (cbn [post]; apply KN, after_nothing; assumption).
    - (* WKT *)
      change (km_wkt k1) with (km_wkt k) in *. pose proof (k_wkt _ _ O2) as OW. destruct (km_wkt k1) as [w|] eqn:Ew; [|now destruct (k_has_wkt k1 _ O2 En)].
      change (km_wkt k1) with (km_wkt k) in Ew. rewrite Ew. cbn [opt_ok] in OW.
      set (frame := blocks (km_private k1) ++ option_blocks reader_blocks (km_reader k1) ++ option_blocks writer_blocks (km_writer k1) ++ flat_map blocks (km_box k1) ++ F).
      assert (forall w' L', Permutation (plain_blocks w' ++ L' ++ frame)
               (kernel_blocks (KernelMem FormatWkt (km_private k1) (km_reader k1) (km_writer k1) (Some w') (km_box k1) (km_started k1)) ++ L' ++ F)) as P.
      { intros w' L'. unfold kernel_blocks, frame. cbn [km_private km_reader km_writer km_wkt km_box option_blocks]. perm. }
      assert (forall w' L', incl (L1 ++ L) L' -> plain_ok w' ->
               kernel_ok (KernelMem FormatWkt (km_private k1) (km_reader k1) (km_writer k1) (Some w') (km_box k1) (km_started k1)) L') as Q.
      { intros w' L' I' O'. destruct (kernel_ok_more k1 _ L' O2 I') as [A B C D E G H]. constructor; auto; cbn; discriminate. }
      apply post_bind. eapply post_mono; [apply (plain_append_inv w ops h1 (L1 ++ L) frame); [|exact OW]|].
      { eapply inv_perm; [exact I2|]. unfold kernel_blocks, frame. change (km_wkt k1) with (km_wkt k). rewrite Ew. cbn [option_blocks]. perm. }
      intros [[w1 code1] h2] A1.
      assert (after tame h2 (kernel_blocks (KernelMem FormatWkt (km_private k1) (km_reader k1) (km_writer k1) (Some w1) (km_box k1) (km_started k1)))
                (kernel_ok (KernelMem FormatWkt (km_private k1) (km_reader k1) (km_writer k1) (Some w1) (km_box k1) (km_started k1))) (L1 ++ L) F) as A2.
      { eapply after_mono; [exact A1|apply P| |auto]. intros L' I' O'. now apply Q. }
      destruct (negb (code1 =? 0)); [now apply KN|]. destruct failed; [now apply KN|].
      destruct A1 as (L2 & I3 & O3 & T3). apply post_bind. eapply post_mono; [apply (plain_finish_inv w1 refused full h2 (L2 ++ L1 ++ L) frame I3 O3)|].
      intros [[[a w2] code2] h3] A3. cbn [post]. apply K. eapply (after_after tame tame tame _ _ _ L2); [|exact T3|auto].
      eapply after_mono; [exact A3| | |auto].
      + intros L'. rewrite <- !app_assoc. apply Permutation_app_head. apply P.
      + intros L' I' O'. apply Q; [|exact O']. intros x X. apply I'. now apply in_or_app; right.
    - (* native arrays and WKB *)
      pose proof (k_writer _ _ O2) as OW. destruct (km_writer k1) as [w|] eqn:Ew; [|now destruct (k_has_writer k1 _ O2 S En)]. cbn [opt_ok] in OW.
      set (frame := blocks (km_private k1) ++ option_blocks reader_blocks (km_reader k1) ++ option_blocks plain_blocks (km_wkt k1) ++ flat_map blocks (km_box k1) ++ F).
      assert (forall w' L', Permutation (writer_blocks w' ++ L' ++ frame)
               (kernel_blocks (KernelMem AsGeoarrow (km_private k1) (km_reader k1) (Some w') (km_wkt k1) (km_box k1) (km_started k1)) ++ L' ++ F)) as P.
      { intros w' L'. unfold kernel_blocks, frame. cbn [km_private km_reader km_writer km_wkt km_box option_blocks]. perm. }
      assert (forall w' L', incl (L1 ++ L) L' -> writer_ok w' L' ->
               kernel_ok (KernelMem AsGeoarrow (km_private k1) (km_reader k1) (Some w') (km_wkt k1) (km_box k1) (km_started k1)) L') as Q.
      { intros w' L' I' O'. destruct (kernel_ok_more k1 _ L' O2 I') as [A B C D E G H]. constructor; auto; cbn; discriminate. }
      apply post_bind. eapply post_mono; [apply (writer_append_inv w ops h1 (L1 ++ L) frame); [|exact OW]|].
      { eapply inv_perm; [exact I2|]. unfold kernel_blocks, frame. rewrite Ew. cbn [option_blocks]. perm. }
      intros [[w1 code1] h2] A1.
      assert (after tame h2 (kernel_blocks (KernelMem AsGeoarrow (km_private k1) (km_reader k1) (Some w1) (km_wkt k1) (km_box k1) (km_started k1)))
                (kernel_ok (KernelMem AsGeoarrow (km_private k1) (km_reader k1) (Some w1) (km_wkt k1) (km_box k1) (km_started k1))) (L1 ++ L) F) as A2.
      { eapply after_mono; [exact A1|apply P| |auto]. intros L' I' O'. now apply Q. }
      destruct (negb (code1 =? 0)); [now apply KN|]. destruct failed; [now apply KN|].
      destruct A1 as (L2 & I3 & O3 & T3). apply post_bind. eapply post_mono; [apply (writer_finish_inv w1 refused full h2 (L2 ++ L1 ++ L) frame I3 O3)|].
      intros [[[a w2] code2] h3] A3. cbn [post]. apply K. eapply (after_after tame tame tame _ _ _ L2); [|exact T3|auto].
      eapply after_mono; [exact A3| | |auto].
      + intros L'. rewrite <- !app_assoc. apply Permutation_app_head. apply P.
      + intros L' I' O'. apply Q; [|exact O']. intros x X. apply I'. now apply in_or_app; right.
    - (* boxes *)
      apply post_bind. eapply post_mono; [apply (appends_box_inv k1 ops h1 _ _ I2 O2)|]. intros [[ps code1] h2] A1.
      destruct (negb (code1 =? 0)); [now apply KN|]. destruct failed; [now apply KN|].
      destruct A1 as (L2 & I3 & O3 & T3). eapply post_mono; [apply (box_finish_inv _ nulls h2 _ _ I3 O3)|].
      intros [[[a k2] code2] h3] A3. apply K. eapply (after_after tame tame tame _ _ _ L2); [exact A3|exact T3|auto].
  Qed.

  Lemma kernel_finish_inv k ops h L F : Inv h (kernel_blocks k ++ L ++ F) -> kernel_ok k L ->
    post (kernel_finish fails k ops h) (fun r => let '(a, k', code, h') := r in
      after tame h' (option_blocks array_blocks a ++ kernel_blocks k') (kernel_ok k') L F).
  Proof.
    intros I O. unfold kernel_finish.
    assert (forall n, let '(a, h1) := new_array fails n h in
              exists b, a = Some (ArrayMem b (repeat None n)) /\ Inv h1 (array_blocks (ArrayMem b (repeat None n)) ++ kernel_blocks k ++ L ++ F)) as N.
    { intros n. pose proof (new_array_inv n h _ I) as A. destruct (new_array fails n h) as [[[b ps]|] h1]; [|now destruct A as [_ []]].
      destruct A as [Ea I1]. cbn in Ea. subst ps. exists b. split; [reflexivity|]. unfold array_blocks. cbn [am_block am_bufs] in *. rewrite none_blocks. inv I1. }
    destruct (km_name k) eqn:En; try now apply after_nothing.
    1, 2: specialize (N 0%nat); destruct (new_array fails 0 h) as [a h1]; destruct N as (b & -> & I1);
      apply after_nothing; [cbn [option_blocks]; inv I1|exact O].
    - specialize (N 2%nat). destruct (new_array fails 2 h) as [a h1]. destruct N as (b & -> & I1). apply post_bind.
      eapply post_mono; [apply (finalize_array_inv _ h1 _ I1)|]. intros [[a' code] h2] (I2 & _ & _). destruct (code =? 0).
      + apply after_nothing; [cbn [option_blocks]; inv I2|exact O].
      + apply post_bind. eapply post_mono; [apply (free_all_inv _ h2 _ I2)|]. intros h3 I3. now apply after_nothing.
    - apply post_bind. eapply post_mono; [apply (appends_box_inv k ops h _ _ I O)|]. intros [[ps code1] h2] A1.
      destruct (negb (code1 =? 0)); [exact A1|].
      destruct A1 as (L2 & I3 & O3 & T3). eapply post_mono; [apply (box_finish_inv _ false h2 _ _ I3 O3)|].
      intros [[[a k2] code2] h3] A3. eapply (after_after tame tame tame _ _ _ L2); [exact A3|exact T3|auto].
  Qed.

  (** ** Programs *)
  Record state_ok (s : state) (L : list nat) : Prop := {
    s_geometry : opt_ok geom_ok (gs_geometry s) L;
    s_reader : opt_ok reader_ok (gs_reader s) L;
    s_writer : opt_ok writer_ok (gs_writer s) L;
    s_kernel : opt_ok kernel_ok (gs_kernel s) L }.
  Lemma opt_more {A} (ok : A -> list nat -> Prop) o L L' : (forall x, ok x L -> ok x L') -> opt_ok ok o L -> opt_ok ok o L'.
  Proof. destruct o; cbn; auto. Qed.
  Lemma state_ok_more s L L' : state_ok s L -> incl L L' -> state_ok s L'.
  Proof.
    intros [A B C D] I. constructor; (eapply opt_more; [|eassumption]); intros x X;
      [eapply geom_ok_more|eapply reader_ok_more|eapply writer_ok_more|eapply kernel_ok_more]; eauto.
  Qed.

  Definition quiet (s : state) (call : mem_call) : Prop :=
    supported call /\ match call, gs_kernel s with KernelStart _ _ _ _, Some k => km_reader k = None | _, _ => True end.

  Definition rest_geometry s := option_blocks reader_blocks (gs_reader s) ++ option_blocks writer_blocks (gs_writer s) ++
    option_blocks kernel_blocks (gs_kernel s) ++ concat (gs_outs s).
  Definition rest_reader s := option_blocks geom_blocks (gs_geometry s) ++ option_blocks writer_blocks (gs_writer s) ++
    option_blocks kernel_blocks (gs_kernel s) ++ concat (gs_outs s).
  Definition rest_writer s := option_blocks geom_blocks (gs_geometry s) ++ option_blocks reader_blocks (gs_reader s) ++
    option_blocks kernel_blocks (gs_kernel s) ++ concat (gs_outs s).
  Definition rest_kernel s := option_blocks geom_blocks (gs_geometry s) ++ option_blocks reader_blocks (gs_reader s) ++
    option_blocks writer_blocks (gs_writer s) ++ concat (gs_outs s).

  Lemma concat_given {A} (f : A -> list nat) (o : option A) : concat (given f o) = option_blocks f o.
  Proof. destruct o; cbn; auto. now rewrite app_nil_r. Qed.

  Ltac blocks_unfold := unfold state_blocks, rest_geometry, rest_reader, rest_writer, rest_kernel, set_geometry, set_reader, set_writer, set_kernel in *;
    cbn [gs_geometry gs_reader gs_writer gs_kernel gs_outs] in *; rewrite ?concat_app, ?concat_given in *.

  Lemma with_geometry C s g h L : state_ok s L -> after C h (option_blocks geom_blocks g) (opt_ok geom_ok g) L (rest_geometry s) ->
    after C h (state_blocks (set_geometry s g)) (state_ok (set_geometry s g)) L [].
  Proof.
    intros O A. eapply after_mono; [exact A| | |auto].
    - intros L'. blocks_unfold. perm.
    - intros L' I G. destruct (state_ok_more _ _ _ O I). constructor; auto.
  Qed.
  Lemma with_reader C s g h L : state_ok s L -> after C h (option_blocks reader_blocks g) (opt_ok reader_ok g) L (rest_reader s) ->
    after C h (state_blocks (set_reader s g)) (state_ok (set_reader s g)) L [].
  Proof.
    intros O A. eapply after_mono; [exact A| | |auto].
    - intros L'. blocks_unfold. perm.
    - intros L' I G. destruct (state_ok_more _ _ _ O I). constructor; auto.
  Qed.
  Lemma with_writer C s w outs h L : state_ok s L -> after C h (concat outs ++ option_blocks writer_blocks w) (opt_ok writer_ok w) L (rest_writer s) ->
    after C h (state_blocks (set_writer s w outs)) (state_ok (set_writer s w outs)) L [].
  Proof.
    intros O A. eapply after_mono; [exact A| | |auto].
    - intros L'. blocks_unfold. perm.
    - intros L' I G. destruct (state_ok_more _ _ _ O I). constructor; auto.
  Qed.
  Lemma with_kernel C s k outs h L : state_ok s L -> after C h (concat outs ++ option_blocks kernel_blocks k) (opt_ok kernel_ok k) L (rest_kernel s) ->
    after C h (state_blocks (set_kernel s k outs)) (state_ok (set_kernel s k outs)) L [].
  Proof.
    intros O A. eapply after_mono; [exact A| | |auto].
    - intros L'. blocks_unfold. perm.
    - intros L' I G. destruct (state_ok_more _ _ _ O I). constructor; auto.
  Qed.
  Lemma after_weaken (C C' : Prop) h own ok L F : after C h own ok L F -> (C' -> C) -> after C' h own ok L F.
  Proof. intros A W. eapply after_mono; [exact A|reflexivity|auto|exact W]. Qed.

  Lemma mem_step_inv s call h L : always fails ForBuffer \/ not_deep_copy call -> Inv h (state_blocks s ++ L ++ []) -> state_ok s L ->
    post (mem_step fails s call h) (fun r : state * Z * heap => let '(s', code, h') := r in
      after (tame /\ quiet s call) h' (state_blocks s') (state_ok s') L []).
  Proof.
    intros NC I O. unfold mem_step.
    assert (forall code, post (Ok (s, code, h)) (fun r : state * Z * heap => let '(s', code, h') := r in after (tame /\ quiet s call) h' (state_blocks s') (state_ok s') L [])) as Same.
    { intros code. now apply after_nothing. }
    pose proof (s_geometry _ _ O) as OG. pose proof (s_reader _ _ O) as OR. pose proof (s_writer _ _ O) as OW. pose proof (s_kernel _ _ O) as OK.
    assert (Inv h (option_blocks geom_blocks (gs_geometry s) ++ L ++ rest_geometry s)) as IG by (blocks_unfold; inv I).
    assert (Inv h (option_blocks reader_blocks (gs_reader s) ++ L ++ rest_reader s)) as IR by (blocks_unfold; inv I).
    assert (Inv h (option_blocks writer_blocks (gs_writer s) ++ L ++ rest_writer s)) as IW by (blocks_unfold; inv I).
    assert (Inv h (option_blocks kernel_blocks (gs_kernel s) ++ L ++ rest_kernel s)) as IK by (blocks_unfold; inv I).
    destruct call.
    - destruct (gs_geometry s) as [g|]; [apply Same|]. pose proof (geometry_init_inv h L _ IG) as A. destruct (geometry_init fails h) as [g h1].
      destruct A as [A B]. apply with_geometry; [exact O|]. apply after_nothing; [exact A|]. destruct g; [exact B|exact Logic.I].
    - destruct (gs_geometry s) as [g|]; [|apply Same]. apply post_bind. eapply post_mono; [apply (append_node_inv g full h L _ IG OG)|].
      intros [[g' code] h1] A. apply with_geometry; [exact O|]. eapply after_weaken; [exact A|tauto].
    - destruct (gs_geometry s) as [g|]; [|apply Same]. apply post_bind. eapply post_mono; [apply (reserve_coords_inv g full h L _ IG OG)|].
      intros [[g' code] h1] A. apply with_geometry; [exact O|]. eapply after_weaken; [exact A|tauto].
    - destruct (gs_geometry s) as [g|]; [|apply Same]. destruct NC as [NC|[]]. apply post_bind.
      eapply post_mono; [apply (deep_copy_inv g full_coords full_nodes h L _ NC IG OG)|].
      intros [[g' code] h1] A. apply with_geometry; [exact O|]. eapply after_weaken; [exact A|tauto].
    - destruct (gs_geometry s) as [g|]; [|apply Same]. rewrite (geometry_visit_inv g h L _ IG OG). apply Same.
    - destruct (gs_geometry s) as [g|]; [|apply Same]. apply post_bind. eapply post_mono; [apply (geometry_reset_inv g h _ IG)|].
      intros h1 A. apply with_geometry; [exact O|]. apply after_nothing; [exact A|exact Logic.I].
    - destruct (gs_reader s) as [r|]; [destruct (gs_geometry s); apply Same|].
      assert (post (do (r, code, h) <- array_reader_init fails kind h; Ok (set_reader s r, code, h)) (fun r : state * Z * heap => let '(s', code, h') := r in
        after (tame /\ quiet s (ReaderInit kind)) h' (state_blocks s') (state_ok s') L [])) as K; [|destruct (gs_geometry s); exact K].
      apply post_bind. eapply post_mono; [apply (reader_init_inv kind h L _ IR)|]. intros [[r code] h1] [A B].
      apply with_reader; [exact O|]. apply after_nothing; [exact A|]. destruct r; [apply B|exact Logic.I].
    - destruct (gs_reader s) as [r|]; [|destruct (gs_geometry s); apply Same].
      assert (post (do (r, code, h) <- array_reader_visit fails r reads h; Ok (set_reader s (Some r), code, h)) (fun r : state * Z * heap => let '(s', code, h') := r in
        after (tame /\ quiet s (ReaderVisit reads)) h' (state_blocks s') (state_ok s') L [])) as K; [|destruct (gs_geometry s); exact K].
      apply post_bind. eapply post_mono; [apply (reader_visit_inv r reads h L _ IR OR)|]. intros [[r' code] h1] A.
      apply with_reader; [exact O|]. eapply after_weaken; [exact A|tauto].
    - destruct (gs_reader s) as [r|]; [|destruct (gs_geometry s); apply Same].
      assert (post (do h <- array_reader_reset r h; Ok (set_reader s None, 0, h)) (fun r : state * Z * heap => let '(s', code, h') := r in
        after (tame /\ quiet s ReaderReset) h' (state_blocks s') (state_ok s') L [])) as K; [|destruct (gs_geometry s); exact K].
      apply post_bind. eapply post_mono; [apply (reader_reset_inv r h _ IR)|]. intros h1 A.
      apply with_reader; [exact O|]. apply after_nothing; [exact A|exact Logic.I].
    - destruct (gs_writer s) as [w|]; [destruct (gs_geometry s), (gs_reader s); apply Same|].
      assert (post (do (r, code, h) <- array_writer_init fails t h; Ok (set_writer s r [], code, h)) (fun r : state * Z * heap => let '(s', code, h') := r in
        after (tame /\ quiet s (WriterInit t)) h' (state_blocks s') (state_ok s') L [])) as K; [|destruct (gs_geometry s), (gs_reader s); exact K].
      apply post_bind. eapply post_mono; [apply (writer_init_inv t h L _ IW)|]. intros [[r code] h1] A.
      apply with_writer; [exact O|]. cbn [concat app]. eapply after_mono; [exact A|reflexivity| |].
      + intros L' _ B. destruct r; [apply B|exact Logic.I].
      + intros [T [Q _]]. split; [exact T|]. now intros ->.
    - destruct (gs_writer s) as [w|]; [|destruct (gs_geometry s), (gs_reader s); apply Same].
      assert (post (do (r, code, h) <- array_writer_append fails w ops h; Ok (set_writer s (Some r) [], code, h)) (fun r : state * Z * heap => let '(s', code, h') := r in
        after (tame /\ quiet s (WriterAppend ops)) h' (state_blocks s') (state_ok s') L [])) as K; [|destruct (gs_geometry s), (gs_reader s); exact K].
      apply post_bind. eapply post_mono; [apply (writer_append_inv w ops h L _ IW OW)|]. intros [[r code] h1] A.
      apply with_writer; [exact O|]. cbn [concat app]. eapply after_weaken; [exact A|tauto].
    - destruct (gs_writer s) as [w|]; [|destruct (gs_geometry s), (gs_reader s); apply Same].
      assert (post (do (a, r, code, h) <- array_writer_finish fails w refused full h; Ok (set_writer s (Some r) (given array_blocks a), code, h)) (fun r : state * Z * heap => let '(s', code, h') := r in
        after (tame /\ quiet s (WriterFinish refused full)) h' (state_blocks s') (state_ok s') L [])) as K; [|destruct (gs_geometry s), (gs_reader s); exact K].
      apply post_bind. eapply post_mono; [apply (writer_finish_inv w refused full h L _ IW OW)|]. intros [[[a r] code] h1] A.
      apply with_writer; [exact O|]. rewrite concat_given. eapply after_weaken; [exact A|tauto].
    - destruct (gs_writer s) as [w|]; [|destruct (gs_geometry s), (gs_reader s); apply Same].
      assert (post (do h <- array_writer_reset w h; Ok (set_writer s None [], 0, h)) (fun r : state * Z * heap => let '(s', code, h') := r in
        after (tame /\ quiet s WriterReset) h' (state_blocks s') (state_ok s') L [])) as K; [|destruct (gs_geometry s), (gs_reader s); exact K].
      apply post_bind. eapply post_mono; [apply (writer_reset_inv w h L _ IW OW)|]. intros h1 A.
      apply with_writer; [exact O|]. apply after_nothing; [exact A|exact Logic.I].
    - destruct (gs_kernel s) as [k|]; [destruct (gs_geometry s), (gs_reader s), (gs_writer s); apply Same|].
      assert (post (do (r, code, h) <- kernel_init fails name h; Ok (set_kernel s r [], code, h)) (fun r : state * Z * heap => let '(s', code, h') := r in
        after (tame /\ quiet s (KernelInit name)) h' (state_blocks s') (state_ok s') L [])) as K; [|destruct (gs_geometry s), (gs_reader s), (gs_writer s); exact K].
      apply post_bind. eapply post_mono; [apply (kernel_init_inv name h L _ IK)|]. intros [[k code] h1] (A & B & _).
      apply with_kernel; [exact O|]. apply after_nothing; [exact A|exact B].
    - destruct (gs_kernel s) as [k|] eqn:Ek; [|destruct (gs_geometry s), (gs_reader s), (gs_writer s); apply Same].
      assert (post (do (sc, k, code, h) <- kernel_start fails k kind refused t s0 h; Ok (set_kernel s (Some k) (given (fun bs => bs) sc), code, h)) (fun r : state * Z * heap => let '(s', code, h') := r in
        after (tame /\ quiet s (KernelStart kind refused t s0)) h' (state_blocks s') (state_ok s') L [])) as K; [|destruct (gs_geometry s), (gs_reader s), (gs_writer s); exact K].
      apply post_bind. eapply post_mono; [apply (kernel_start_inv k kind refused t s0 h L _ IK OK)|]. intros [[[sc k'] code] h1] A.
      apply with_kernel; [exact O|]. rewrite concat_given. eapply after_weaken; [exact A|]. unfold quiet. rewrite Ek. intros [T [Q1 Q2]].
      split; [exact T|]. split; [exact Q2|]. now intros ->.
    - destruct (gs_kernel s) as [k|] eqn:Ek; [|destruct (gs_geometry s), (gs_reader s), (gs_writer s); apply Same].
      assert (post (if km_started k then do (a, k, code, h) <- kernel_push_batch fails k reads ops failed refused full with_nulls h;
                      Ok (set_kernel s (Some k) (given array_blocks a), code, h) else Ok (s, -1, h)) (fun r : state * Z * heap => let '(s', code, h') := r in
        after (tame /\ quiet s (KernelPushBatch reads ops failed refused full with_nulls)) h' (state_blocks s') (state_ok s') L [])) as K;
        [|destruct (gs_geometry s), (gs_reader s), (gs_writer s); exact K].
      destruct (km_started k) eqn:Es; [|apply Same].
      apply post_bind. eapply post_mono; [apply (kernel_push_inv k reads ops failed refused full with_nulls h L _ IK OK Es)|]. intros [[[a k'] code] h1] A.
      apply with_kernel; [exact O|]. rewrite concat_given. eapply after_weaken; [exact A|tauto].
    - destruct (gs_kernel s) as [k|] eqn:Ek; [|destruct (gs_geometry s), (gs_reader s), (gs_writer s); apply Same].
      assert (post (if km_started k then do (a, k, code, h) <- kernel_finish fails k ops h;
                      Ok (set_kernel s (Some k) (given array_blocks a), code, h) else Ok (s, -1, h)) (fun r : state * Z * heap => let '(s', code, h') := r in
        after (tame /\ quiet s (KernelFinish ops)) h' (state_blocks s') (state_ok s') L [])) as K;
        [|destruct (gs_geometry s), (gs_reader s), (gs_writer s); exact K].
      destruct (km_started k) eqn:Es; [|apply Same].
      apply post_bind. eapply post_mono; [apply (kernel_finish_inv k ops h L _ IK OK)|]. intros [[[a k'] code] h1] A.
      apply with_kernel; [exact O|]. rewrite concat_given. eapply after_weaken; [exact A|tauto].
    - destruct (gs_kernel s) as [k|] eqn:Ek; [|destruct (gs_geometry s), (gs_reader s), (gs_writer s); apply Same].
      assert (post (do h <- kernel_release k h; Ok (set_kernel s None [], 0, h)) (fun r : state * Z * heap => let '(s', code, h') := r in
        after (tame /\ quiet s KernelRelease) h' (state_blocks s') (state_ok s') L [])) as K; [|destruct (gs_geometry s), (gs_reader s), (gs_writer s); exact K].
      apply post_bind. eapply post_mono; [apply (kernel_release_inv k h L _ IK OK)|]. intros h1 A.
      apply with_kernel; [exact O|]. apply after_nothing; [exact A|exact Logic.I].
    - destruct (gs_outs s) as [|bs outs] eqn:Eo; [apply Same|].
      apply post_bind. unfold state_blocks in I. rewrite Eo in I. cbn [concat] in I.
      eapply post_mono; [apply (free_all_inv bs h (state_blocks (State (gs_geometry s) (gs_reader s) (gs_writer s) (gs_kernel s) outs) ++ L ++ []))|].
      + unfold state_blocks. cbn [gs_geometry gs_reader gs_writer gs_kernel gs_outs]. inv I.
      + intros h1 I1. apply after_nothing; [exact I1|]. constructor; assumption.
  Qed.

  Definition fresh (started : bool) (s : state) : Prop :=
    started = false -> forall k, gs_kernel s = Some k -> km_reader k = None /\ km_started k = false.
  Definition next_started (started : bool) (call : mem_call) : bool :=
    match call with KernelStart _ _ _ _ => true | KernelRelease => false | _ => started end.

  Ltac cases E := repeat (match type of E with (match ?x with _ => _ end) = _ => destruct x eqn:?; try discriminate E end).
  Lemma kernel_init_fresh name h k code h' : kernel_init fails name h = Ok (Some k, code, h') -> km_reader k = None /\ km_started k = false.
  Proof. intros E. unfold kernel_init, obind in E. cases E; injection E as <- _ _; auto. Qed.
  Lemma step_fresh s call h s' code h' started : mem_step fails s call h = Ok (s', code, h') -> fresh started s -> fresh (next_started started call) s'.
  Proof.
    intros E N. unfold mem_step in E. destruct call; cbn [next_started]; unfold obind in E; try (intros Z; discriminate Z).
    all: cases E; injection E as <- _ _; try exact N; try (intros Z k K; cbn in K; apply (N Z k); congruence).
    all: try (intros Z k0 K; cbn in K; first [discriminate K|congruence]).
    all: try (intros Z k0 K; cbn in K; subst; injection K as <-; eapply kernel_init_fresh; eassumption).
    all: try (intros Z; specialize (N Z); destruct (N _ eq_refl); congruence).
    - intros _ k K. cbn in K. subst o. eapply kernel_init_fresh; eassumption.
    - intros Z k1 K. match goal with H : gs_kernel _ = Some _ |- _ => destruct (N Z _ H); congruence end.
    - intros Z k1 K. match goal with H : gs_kernel _ = Some _ |- _ => destruct (N Z _ H); congruence end.
  Qed.

  Lemma mem_calls_inv calls : forall s h L started, always fails ForBuffer \/ Forall not_deep_copy calls ->
    Inv h (state_blocks s ++ L ++ []) -> state_ok s L -> fresh started s ->
    post (mem_calls fails s calls h) (fun r : state * list Z * heap => let '(s', codes, h') := r in
      after (tame /\ Forall supported calls /\ started_once started calls) h' (state_blocks s') (state_ok s') L []).
  Proof.
    induction calls as [|call calls IH]; intros s h L started NC I O N; cbn [mem_calls]; [now apply after_nothing|].
    assert (post (mem_step fails s call h) (fun r : state * Z * heap => let '(s', code, h') := r in
      after (tame /\ quiet s call) h' (state_blocks s') (state_ok s') L [])) as S.
    { apply mem_step_inv; auto. destruct NC as [NC|NC]; auto. right. now inversion NC. }
    apply post_bind. destruct (mem_step fails s call h) as [[[s1 code] h1]|c| |] eqn:E; try exact S. cbn [post] in *.
    destruct S as (L1 & I1 & O1 & T1). apply post_bind.
    eapply post_mono; [apply (IH s1 h1 (L1 ++ L) (next_started started call))|].
    - destruct NC as [NC|NC]; auto. right. now inversion NC.
    - exact I1.
    - exact O1.
    - eapply step_fresh; eauto.
    - intros [[s2 codes] h2] A. cbn [post]. eapply after_after; [exact A|exact T1|].
      intros (T & Su & St). inversion Su as [|? ? Su1 Su2]; subst. split.
      + split; [exact T|]. split; [exact Su1|]. destruct call; auto. destruct (gs_kernel s) as [k|] eqn:Ek; [|exact Logic.I].
        cbn in St. destruct St as [St _]. apply (N St k Ek).
      + split; [exact T|]. split; [exact Su2|]. destruct call; cbn in *; tauto.
  Qed.
  Lemma inv_start : Inv no_memory (state_blocks start_state ++ [] ++ []).
  Proof. split; [constructor|]. split; [constructor|constructor]. Qed.
  Lemma start_ok : state_ok start_state [].
  Proof. constructor; exact Logic.I. Qed.
  Lemma start_fresh : fresh false start_state.
  Proof. intros _ k K. discriminate. Qed.

  Theorem programs_safe calls : always fails ForBuffer \/ Forall not_deep_copy calls ->
    exists s codes h, mem_calls fails start_state calls no_memory = Ok (s, codes, h).
  Proof.
    intros NC. pose proof (mem_calls_inv calls start_state no_memory [] false NC inv_start start_ok start_fresh) as P.
    destruct (mem_calls fails start_state calls no_memory) as [[[s codes] h]|c| |]; try destruct P. eauto.
  Qed.
  Theorem programs_release calls s codes h : always fails ForBuffer -> always fails ForSchema -> Forall supported calls -> started_once false calls ->
    mem_calls fails start_state calls no_memory = Ok (s, codes, h) -> Permutation (h_live h) (state_blocks s).
  Proof.
    intros B Sc Su St E. pose proof (mem_calls_inv calls start_state no_memory [] false (or_introl B) inv_start start_ok start_fresh) as P.
    rewrite E in P. destruct P as (L1 & (_ & P & _) & _ & T). rewrite T in P by (repeat split; auto). cbn [app] in P. now rewrite app_nil_r in P.
  Qed.
  (** Whatever fails, what the program still has is live. *)
  Theorem programs_keep calls s codes h : always fails ForBuffer \/ Forall not_deep_copy calls ->
    mem_calls fails start_state calls no_memory = Ok (s, codes, h) -> NoDup (state_blocks s) /\ incl (state_blocks s) (h_live h).
  Proof.
    intros NC E. pose proof (mem_calls_inv calls start_state no_memory [] false NC inv_start start_ok start_fresh) as P.
    rewrite E in P. destruct P as (L1 & (N & P & _) & _ & _). split.
    - clear -N. induction (state_blocks s) as [|b l IH]; constructor; inversion N; subst; auto.
      intros X. apply H1. apply in_or_app. auto.
    - intros b B. rewrite P. apply in_or_app. auto.
  Qed.
End Proofs.
