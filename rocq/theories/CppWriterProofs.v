(** * Sessions of writer objects *)
From Verif Require Import Base BaseFacts Text TypesModel FloatModel GeomSpec VisitorModel VisitorSpec BufferModel BufferFacts NativeSpec ArrowModel
  WkbSpec WktSpec WktReadable SerialSpec WktReaderModel ArrayReaderModel NativeWriterModel NativeWriterSpec NativeVisitorSpec NativeVisitorProofs NativeVisitorHistory
  WkbWriterModel WkbWriterSpec WktWriterModel WktWriterSpec WktWriterHistory KernelModel KernelSpec WkbWriterHistory ConversionModel ConversionSpec ConversionProofs CppWkbModel CppWriterModel CppWriterSpec.
Local Open Scope Z_scope.

Section Generic.
  Variable pd : N -> Z -> bytes.
  Variable junk : nat -> nat -> N.
  Variable v : visitor awriter.
  (** States of the writer in which the features are held, features that an array has room for, and what it then holds *)
  Variable Inv : awriter -> list (option geom) -> Prop.
  Variable fits : list (option geom) -> Prop.
  Variable Holds : list (option geom) -> arrow_array -> Prop.
  Hypothesis Hvisit : forall w fs0 fs1 fs evs, Inv w fs0 -> features_events fs1 evs -> fits (fs0 ++ fs1 ++ fs) ->
    exists w', feed v w evs = Some (w', 0) /\ Inv w' (fs0 ++ fs1).
  Hypothesis Hfinish : forall w fs, Inv w fs -> fits fs -> exists w' a, array_finish junk w = Some (w', 0, Some a) /\ Holds fs a /\ Inv w' [].

  Definition with_first (fs0 : list (option geom)) (fss : list (list (option geom))) : list (list (option geom)) :=
    match fss with [] => [] | fs :: fss => (fs0 ++ fs) :: fss end.

  (** Settings can be made, and do no harm. *)
  Variable allowed : writer_call -> Prop.
  Hypothesis Hset : forall w fs p, Inv w fs -> allowed (CallSetPrecision p) -> exists w', set_precision w p = Ok w' /\ Inv w' fs.
  Hypothesis Hflat : forall flat, ~ allowed (CallSetFlatMultipoint flat).

  Lemma session_visiting fss calls : calls_for fss calls -> Forall allowed calls -> forall w fs0, Inv w fs0 -> Forall fits (with_first fs0 fss) ->
    exists o arrays, writer_calls pd junk (WriterObject w (Some v)) calls = Ok (arrays, o) /\ Forall2 Holds (with_first fs0 fss) arrays.
  Proof.
    intros H. induction H as [|p fss calls _ IH|flat fss calls _ IH|fs1 evs fs fss calls He _ IH|fss calls _ IH]; intros Ha w fs0 Hi Hf.
    - eexists. eexists. split; [reflexivity|constructor].
    - apply Forall_cons_iff in Ha. destruct Ha as [Ha1 Ha]. destruct (Hset w fs0 p Hi Ha1) as (w' & E & Hi'). destruct (IH Ha w' fs0 Hi' Hf) as (o & arrays & E' & H').
      exists o, arrays. split; [|exact H']. cbn [writer_calls writer_step cpp_set_precision wo_writer wo_visitor obind]. unfold cpp_set_precision. cbn [wo_writer wo_visitor]. rewrite E. cbn [throw_not_ok obind]. rewrite E'. reflexivity.
    - apply Forall_cons_iff in Ha. destruct Ha as [Ha1 _]. destruct (Hflat flat Ha1).
    - apply Forall_cons_iff in Ha. destruct Ha as [_ Ha]. cbn [with_first] in Hf. apply Forall_cons_iff in Hf. destruct Hf as [Hf1 Hf].
      destruct (Hvisit w fs0 fs1 fs evs Hi He Hf1) as (w' & E & Hi'). destruct (IH Ha w' (fs0 ++ fs1) Hi') as (o & arrays & E' & H').
      { cbn [with_first]. constructor; [rewrite <- app_assoc; exact Hf1|exact Hf]. }
      exists o, arrays. split; [|cbn [with_first] in *; rewrite <- app_assoc in H'; exact H'].
      cbn [writer_calls writer_step]. unfold cpp_visitor. cbn [wo_writer wo_visitor obind]. rewrite E. change (0 =? 0) with true. cbn [obind]. rewrite E'. reflexivity.
    - apply Forall_cons_iff in Ha. destruct Ha as [_ Ha]. cbn [with_first] in Hf |- *. rewrite app_nil_r in *. apply Forall_cons_iff in Hf. destruct Hf as [Hf1 Hf].
      destruct (Hfinish w fs0 Hi Hf1) as (w' & a & E & Hh & Hi'). destruct (IH Ha w' [] Hi') as (o & arrays & E' & H'); [destruct fss; exact Hf|].
      exists o, (a :: arrays). split.
      + cbn [writer_calls writer_step]. unfold cpp_finish. cbn [wo_writer wo_visitor]. rewrite E. change (0 =? 0) with true. cbn [obind]. rewrite E'. reflexivity.
      + constructor; [exact Hh|]. destruct fss; exact H'.
  Qed.

  (** Before the visitor is asked for: the writer has the settings [st], which decide about the visitor. *)
  Variable St : Type.
  Variable Start : awriter -> St -> Prop.
  Variable next : St -> Z -> St.
  Hypothesis Hstart_inv : forall w st, Start w st -> Inv w [].
  Hypothesis Hstart_set : forall w st p, Start w st -> allowed (CallSetPrecision p) -> exists w', set_precision w p = Ok w' /\ Start w' (next st p).
  Hypothesis Hstart_finish : forall w st, Start w st -> fits [] -> exists w' a, array_finish junk w = Some (w', 0, Some a) /\ Holds [] a /\ Start w' st.
  Fixpoint last_state (st : St) (calls : list writer_call) : St :=
    match calls with
    | CallSetPrecision p :: calls => last_state (next st p) calls
    | CallFinish :: calls => last_state st calls
    | _ => st
    end.

  Lemma session_starting fss calls : calls_for fss calls -> Forall allowed calls -> forall w st, Start w st -> Forall fits fss ->
    (forall w', Start w' (last_state st calls) -> array_visitor pd junk w' = Ok v) ->
    exists o arrays, writer_calls pd junk (WriterObject w None) calls = Ok (arrays, o) /\ Forall2 Holds fss arrays.
  Proof.
    intros H. induction H as [|p fss calls _ IH|flat fss calls _ IH|fs1 evs fs fss calls He Hc _|fss calls _ IH]; intros Ha w st Hs Hf Hv.
    - eexists. eexists. split; [reflexivity|constructor].
    - apply Forall_cons_iff in Ha. destruct Ha as [Ha1 Ha]. destruct (Hstart_set w st p Hs Ha1) as (w' & E & Hs'). destruct (IH Ha w' (next st p) Hs' Hf Hv) as (o & arrays & E' & H').
      exists o, arrays. split; [|exact H']. cbn [writer_calls writer_step]. unfold cpp_set_precision. cbn [wo_writer wo_visitor]. rewrite E. cbn [throw_not_ok obind]. rewrite E'. reflexivity.
    - apply Forall_cons_iff in Ha. destruct Ha as [Ha1 _]. destruct (Hflat flat Ha1).
    - destruct (session_visiting ((fs1 ++ fs) :: fss) (CallVisit evs :: calls) (call_visit fs1 evs fs fss calls He Hc) Ha w [] (Hstart_inv w st Hs) Hf) as (o & arrays & E' & H').
      exists o, arrays. split; [|exact H']. rewrite <- E'. cbn [writer_calls writer_step]. unfold cpp_visitor. cbn [wo_writer wo_visitor]. rewrite (Hv w Hs). reflexivity.
    - apply Forall_cons_iff in Ha. destruct Ha as [_ Ha]. apply Forall_cons_iff in Hf. destruct Hf as [Hf1 Hf].
      destruct (Hstart_finish w st Hs Hf1) as (w' & a & E & Hh & Hs'). destruct (IH Ha w' st Hs' Hf Hv) as (o & arrays & E' & H').
      exists o, (a :: arrays). split; [|constructor; [exact Hh|exact H']].
      cbn [writer_calls writer_step]. unfold cpp_finish. cbn [wo_writer wo_visitor]. rewrite E. change (0 =? 0) with true. cbn [obind]. rewrite E'. reflexivity.
  Qed.
End Generic.

(** ** WKT *)
Section Wkt.
  Variable pd : N -> Z -> bytes.
  Hypothesis print_short : forall w p, 0 <= p <= 16 -> (length (pd w p) <= 40)%nat.
  Variable junk : nat -> nat -> N.

  Definition wkt_array (p : Z) (flat : bool) (fs : list (option geom)) (a : arrow_array) : Prop :=
    serial_ok Offsets32 a /\ serial_contents Offsets32 a (map (feature_text pd (wkt_config p flat (-1))) fs) /\ aa_null_count a = nulls fs.
  Definition wkt_room (p : Z) (flat : bool) (fs : list (option geom)) : Prop :=
    Forall expressible fs /\ Forall shallow fs /\ Z.of_nat (length fs) < 2 ^ 63 /\ text_size pd (wkt_config p flat (-1)) fs < 2 ^ 31.

  Lemma wkt_finish_array p flat s fs : whistory (to_wst s) (map (feature_text pd (wkt_config p flat (-1))) fs) -> wkt_room p flat fs ->
    exists s' a, wkt_finish s = (s', 0, Some a) /\ wkt_array p flat fs (binary_memory a) /\ kclean s'.
  Proof.
    intros H (_ & _ & Hl & Ht). rewrite text_size_eq in Ht. destruct (kfinish_ok s _ H ltac:(lia)) as (s' & a & E & A & C). exists s', a.
    split; [exact E|]. split; [|exact C]. destruct (memory_ok a _ A) as (M1 & M2 & M3); [rewrite map_length; exact Hl|]. split; [exact M1|]. split; [exact M2|]. rewrite M3. apply nulls_count.
  Qed.

  Lemma wkt_calls fss calls p flat s : calls_for fss calls -> Forall (fun c => is_flat_call c = false) calls ->
    let settings := first_settings p flat calls in
    Forall (wkt_room (fst settings) (snd settings)) fss -> kclean s ->
    exists o arrays, writer_calls pd junk (WriterObject (AWkt p flat s) None) calls = Ok (arrays, o) /\ Forall2 (wkt_array (fst settings) (snd settings)) fss arrays.
  Proof.
    intros Hc Hn settings Hf Hs. destruct settings as [q fl] eqn:Eq. cbn [fst snd] in *. set (cfg := wkt_config q fl (-1)).
    set (v := fun (w : awriter) (e : event) => match w with AWkt p f s => vmap (AWkt p f) (wkt_step pd cfg s e) | _ => VUB end).
    apply (session_starting pd junk v (fun w fs => exists p f s, w = AWkt p f s /\ whistory (to_wst s) (map (feature_text pd cfg) fs)) (wkt_room q fl) (wkt_array q fl))
      with (allowed := fun c => is_flat_call c = false) (Start := fun w st => exists s, w = AWkt (fst st) (snd st) s /\ kclean s) (next := fun (st : Z * bool) p => (p, snd st)) (st := (p, flat)).
    - intros w fs0 fs1 fs evs (p' & f' & s' & -> & H) He (Hx & Hd & Hl & Ht). rewrite !Forall_app in Hx, Hd. rewrite text_size_eq, !map_app, !total_app in Ht.
      assert (0 <= total (map (feature_text pd cfg) fs)) by (unfold total; lia). fold cfg in Ht.
      destruct (wkt_batch pd print_short q fl fs1 evs He s' _ ltac:(tauto) ltac:(tauto) H) as (s1 & E1 & H1); [fold cfg; rewrite total_app; lia|].
      exists (AWkt p' f' s1). split; [apply (feed_vmap (AWkt p' f') (wkt_step pd cfg)); [reflexivity|exact E1]|]. exists p', f', s1. split; [reflexivity|]. rewrite map_app. exact H1.
    - intros w fs (p' & f' & s' & -> & H) Hr. destruct (wkt_finish_array q fl s' fs H Hr) as (s1 & a & E & A & C). exists (AWkt p' f' s1), (binary_memory a).
      split; [cbn [array_finish]; rewrite E; reflexivity|]. split; [exact A|]. exists p', f', s1. split; [reflexivity|]. apply kclean_history. exact C.
    - intros w fs q' (p' & f' & s' & -> & H) _. exists (AWkt q' f' s'). split; [reflexivity|]. exists q', f', s'. split; [reflexivity|exact H].
    - intros f'. discriminate.
    - intros w st (s' & -> & C). exists (fst st), (snd st), s'. split; [reflexivity|]. apply kclean_history. exact C.
    - intros w st q' (s' & -> & C) _. exists (AWkt q' (snd st) s'). split; [reflexivity|]. exists s'. split; [reflexivity|exact C].
    - intros w st (s' & -> & C) Hr. destruct (wkt_finish_array q fl s' [] (kclean_history _ C) Hr) as (s1 & a & E & A & C1). exists (AWkt (fst st) (snd st) s1), (binary_memory a).
      split; [cbn [array_finish]; rewrite E; reflexivity|]. split; [exact A|]. exists s1. split; [reflexivity|exact C1].
    - exact Hc.
    - exact Hn.
    - exists s. split; [reflexivity|exact Hs].
    - exact Hf.
    - intros w' (s' & -> & C). assert (last_state (Z * bool) (fun st p => (p, snd st)) (p, flat) calls = (q, fl)) as ->.
      { rewrite <- Eq. subst settings. clear -Hn. revert p flat Hn. induction calls as [|[p'|f'|evs|] calls IH]; intros p flat Hn; apply Forall_cons_iff in Hn || clear Hn; try reflexivity.
        - destruct Hn as [_ Hn]. exact (IH p' flat Hn).
        - destruct Hn as [Hn _]. discriminate.
        - destruct Hn as [_ Hn]. exact (IH p flat Hn). }
      reflexivity.
  Qed.

  Theorem wkt_session fss calls : calls_for fss calls -> Forall (fun c => is_flat_call c = false) calls ->
    let settings := first_settings 16 true calls in
    Forall (wkt_room (fst settings) (snd settings)) fss ->
    exists arrays, writer_session pd junk TYPE_WKT calls = Ok arrays /\ Forall2 (wkt_array (fst settings) (snd settings)) fss arrays.
  Proof.
    intros Hc Hn settings Hf. destruct (wkt_calls fss calls 16 true wkt_init Hc Hn Hf) as (o & arrays & E & H); [split; reflexivity|].
    exists arrays. split; [|exact H]. unfold writer_session, new_writer. change (array_writer_init junk TYPE_WKT) with (Ok (AWkt 16 true wkt_init)). cbn [throw_not_ok obind]. rewrite E. reflexivity.
  Qed.

  (** What SetFlatMultipoint does *)
  Definition as_made (c : writer_call) : writer_call := match c with CallSetFlatMultipoint flat => CallSetPrecision (if flat then 1 else 0) | _ => c end.
  Lemma as_made_calls calls : forall o, writer_calls pd junk o (map as_made calls) = writer_calls pd junk o calls.
  Proof.
    induction calls as [|c calls IH]; intros o; [reflexivity|]. cbn [map writer_calls]. replace (writer_step pd junk o (as_made c)) with (writer_step pd junk o c) by (destruct c; reflexivity).
    destruct (writer_step pd junk o c) as [[a o']| | |]; [|reflexivity..]. cbn [obind]. rewrite IH. reflexivity.
  Qed.
  Lemma as_made_for fss calls : calls_for fss calls -> calls_for fss (map as_made calls).
  Proof. intros H. induction H; cbn [map as_made]; constructor; assumption. Qed.
  Theorem wkt_session_as_made fss calls : calls_for fss calls ->
    let settings := first_settings 16 true (map as_made calls) in
    Forall (wkt_room (fst settings) (snd settings)) fss ->
    exists arrays, writer_session pd junk TYPE_WKT calls = Ok arrays /\ Forall2 (wkt_array (fst settings) (snd settings)) fss arrays.
  Proof.
    intros Hc settings Hf. destruct (wkt_session fss (map as_made calls) (as_made_for _ _ Hc)) as (arrays & E & H); [|exact Hf|].
    - apply Forall_map. apply Forall_forall. intros [] _; reflexivity.
    - exists arrays. split; [|exact H]. rewrite <- E. unfold writer_session. destruct (new_writer junk TYPE_WKT) as [o| | |]; [|reflexivity..]. cbn [obind]. rewrite as_made_calls. reflexivity.
  Qed.
End Wkt.

(** ** WKB *)
Section Wkb.
  Variable pd : N -> Z -> bytes.
  Variable junk : nat -> nat -> N.
  Definition wkb_array (fs : list (option geom)) (a : arrow_array) : Prop :=
    serial_ok Offsets32 a /\ serial_contents Offsets32 a (map feature_wkb fs) /\ aa_null_count a = nulls fs.

  Theorem wkb_session fss calls : calls_for fss calls -> Forall (fun c => is_setting c = false) calls -> Forall wkb_fits fss ->
    exists arrays, writer_session pd junk TYPE_WKB calls = Ok arrays /\ Forall2 wkb_array fss arrays.
  Proof.
    intros Hc Hn Hf.
    set (v := fun (w : awriter) (e : event) => match w with AWkb s => vmap AWkb (wkb_step s e) | _ => VUB end).
    assert (forall s fs, whistory s (map feature_wkb fs) -> wkb_fits fs -> exists s' a, wkb_finish s = (s', 0, Some a) /\ wkb_array fs (binary_memory a) /\ clean s') as Hfin.
    { intros s fs H (Hl & _ & Ht). rewrite total_size_eq in Ht. destruct (finish_ok s _ H ltac:(lia)) as (s' & a & E & A & C). exists s', a. split; [exact E|]. split; [|exact C].
      destruct (memory_ok a _ A) as (M1 & M2 & M3); [rewrite map_length; exact Hl|]. split; [exact M1|]. split; [exact M2|]. rewrite M3. apply nulls_count. }
    destruct (session_starting pd junk v (fun w fs => exists s, w = AWkb s /\ whistory s (map feature_wkb fs)) wkb_fits wkb_array)
      with (allowed := fun c => is_setting c = false) (St := Datatypes.unit) (Start := fun w (_ : Datatypes.unit) => exists s, w = AWkb s /\ clean s) (next := fun (st : Datatypes.unit) (_ : Z) => st) (st := tt)
        (fss := fss) (calls := calls) (w := AWkb wkb_init) as (o & arrays & E & H); auto.
    - intros w fs0 fs1 fs evs (s' & -> & H) He (Hl & Hg & Ht). rewrite total_size_eq, !map_app, !total_app in Ht.
      assert (0 <= total (map feature_wkb fs)) by (unfold total; lia).
      destruct (wkb_batch fs1 evs He s' _ ltac:(intros g Hin; apply Hg; rewrite !in_app_iff; tauto) H) as (s1 & E1 & H1); [rewrite total_app; lia|].
      exists (AWkb s1). split; [apply (feed_vmap AWkb wkb_step); [reflexivity|exact E1]|]. exists s1. split; [reflexivity|]. rewrite map_app. exact H1.
    - intros w fs (s' & -> & H) Hr. destruct (Hfin s' fs H Hr) as (s1 & a & E & A & C). exists (AWkb s1), (binary_memory a).
      split; [cbn [array_finish]; rewrite E; reflexivity|]. split; [exact A|]. exists s1. split; [reflexivity|]. apply whistory_clean. exact C.
    - discriminate.
    - discriminate.
    - intros w _ (s' & -> & C). exists s'. split; [reflexivity|]. apply whistory_clean. exact C.
    - discriminate.
    - intros w st (s' & -> & C) Hr. destruct (Hfin s' [] (whistory_clean _ C) Hr) as (s1 & a & E & A & C1). exists (AWkb s1), (binary_memory a).
      split; [cbn [array_finish]; rewrite E; reflexivity|]. split; [exact A|]. exists s1. split; [reflexivity|exact C1].
    - exists wkb_init. split; [reflexivity|]. split; reflexivity.
    - intros w' (s' & -> & _). reflexivity.
    - exists arrays. split; [|exact H]. unfold writer_session, new_writer. change (array_writer_init junk TYPE_WKB) with (Ok (AWkb wkb_init)). cbn [throw_not_ok obind]. rewrite E. reflexivity.
  Qed.
End Wkb.

(** ** Native arrays *)
Section Native.
  Variable pd : N -> Z -> bytes.
  Variable junk : nat -> nat -> N.
  Hypothesis junk_bytes : forall i j, is_byte (junk i j).
  Variables (k : geometry_kind) (l : layout) (d : dim).
  Hypothesis not_box : k <> KBox.
  Notation type := (make_type (geometry_kind_code k) (dim_code d) (layout_code l)).

  Definition native_array (fs : list (option geom)) (a : arrow_array) : Prop := exists els, visited_as k d fs els /\ array_of k l d els a.
  Definition native_room (fs : list (option geom)) : Prop := (exists els, visited_as k d fs els) /\ Forall (feature_for k) fs /\ has_room k d fs.

  Lemma visited_one fs els els' : visited_as k d fs els -> visited_as k d fs els' -> els = els'.
  Proof.
    intros H. revert els'. induction H as [|f e fs els H1 _ IH]; intros els' H'; inversion H' as [|? e' ? els2 H1' H2']; subst; [reflexivity|]. f_equal; [|apply IH; exact H2'].
    rewrite H1 in H1'. destruct e, e'; cbn in H1'; congruence.
  Qed.

  Theorem native_session fss calls : calls_for fss calls -> Forall (fun c => is_setting c = false) calls -> Forall native_room fss ->
    exists arrays, writer_session pd junk type calls = Ok arrays /\ Forall2 native_array fss arrays.
  Proof.
    intros Hc Hn Hf. destruct (init_visiting junk junk_bytes k l d not_box) as (w0 & Ew & Hw0).
    assert (exists v, native_visitor junk (geometry_kind_code k) = Some v) as (v & Ev) by (clear -not_box; destruct k; try contradiction; eexists; reflexivity).
    set (av := fun (w : awriter) (e : event) => match w with ANative t w => vmap (ANative t) (v w e) | _ => VUB end).
    set (I := fun (w : awriter) fs => exists w1 els, w = ANative type w1 /\ visited_as k d fs els /\ visiting k l d w1 els).
    assert (forall w fs, I w fs -> native_room fs -> exists w' a, array_finish junk w = Some (w', 0, Some a) /\ native_array fs a /\ I w' []) as Hfin.
    { intros w fs (w1 & els & -> & Hv & Hw) (_ & _ & Hr). destruct (visit_finish junk junk_bytes k l d not_box w1 fs els Hw Hv Hr) as (a & w2 & E2 & A & V2).
      exists (ANative type w2), a. split; [cbn [array_finish]; rewrite E2; reflexivity|]. split; [exists els; split; assumption|]. exists w2, []. split; [reflexivity|]. split; [constructor|exact V2]. }
    destruct (session_starting pd junk av I native_room native_array)
      with (allowed := fun c => is_setting c = false) (St := Datatypes.unit) (Start := fun w (_ : Datatypes.unit) => I w []) (next := fun (st : Datatypes.unit) (_ : Z) => st) (st := tt)
        (fss := fss) (calls := calls) (w := ANative type w0) as (o & arrays & E & H); auto.
    - intros w fs0 fs1 fs evs (w1 & els & -> & Hv & Hw) He ((els' & Hv') & Hff & Hr). rewrite !Forall_app in Hff.
      apply Forall2_app_inv_l in Hv'. destruct Hv' as (els0 & els1 & H0 & H1 & ->). apply Forall2_app_inv_l in H1. destruct H1 as (e1 & e2 & H1 & _ & ->).
      rewrite app_assoc in Hr. apply fits_app in Hr.
      destruct (visit_batch junk junk_bytes k l d not_box v Ev fs1 evs He e1 w1 fs0 els Hv H1 ltac:(tauto) Hw Hr) as (w2 & E2 & V2).
      exists (ANative type w2). split; [apply (feed_vmap (ANative type) v); [reflexivity|exact E2]|]. exists w2, (els ++ e1). split; [reflexivity|]. split; [apply Forall2_app; assumption|exact V2].
    - discriminate.
    - discriminate.
    - discriminate.
    - exists w0, []. split; [reflexivity|]. split; [constructor|exact Hw0].
    - intros w' (w1 & els & -> & _ & _). unfold array_visitor. rewrite (native_type k l d not_box), Ev. reflexivity.
    - exists arrays. split; [|exact H]. unfold writer_session, new_writer. rewrite (native_init_writer junk k l d not_box), Ew. cbn [obind throw_not_ok]. rewrite E. reflexivity.
  Qed.
End Native.

(** ** Settings of other writers *)
Section Settings.
  Variable pd : N -> Z -> bytes.
  Variable junk : nat -> nat -> N.
  Definition is_wkt (w : awriter) : bool := match w with AWkt _ _ _ => true | _ => false end.
  (** A visitor that leaves a writer what it is *)
  Definition keeps_kind (v : visitor awriter) : Prop := forall w e w' c, v w e = VRet w' c -> is_wkt w' = is_wkt w.
  Lemma visitor_keeps w v : array_visitor pd junk w = Ok v -> keeps_kind v.
  Proof.
    destruct w as [p f s|s|t w]; cbn [array_visitor]; [| |destruct (native_visitor junk (geometry_type_from_type t)) as [nv|]; [|discriminate]]; intros E; injection E as <-; intros u e u' c H;
      destruct u as [p' f' s'|s'|t' w']; try discriminate H.
    - destruct (wkt_step pd _ s' e); [|discriminate H]. injection H as <- <-. reflexivity.
    - destruct (wkb_step s' e); [|discriminate H]. injection H as <- <-. reflexivity.
    - destruct (nv w' e); [|discriminate H]. injection H as <- <-. reflexivity.
  Qed.
  Lemma feed_keeps v : keeps_kind v -> forall evs w w' c, feed v w evs = Some (w', c) -> is_wkt w' = is_wkt w.
  Proof.
    intros H. induction evs as [|e evs IH]; intros w w' c E; cbn [feed] in E; [injection E as <- <-; reflexivity|]. destruct (v w e) as [w1 c1|] eqn:E1; [|discriminate].
    apply H in E1. destruct (c1 =? 0); [apply IH in E; congruence|injection E as <- <-; exact E1].
  Qed.
  Definition settled (o : writer_object) : Prop := is_wkt (wo_writer o) = false /\ match wo_visitor o with Some v => keeps_kind v | None => True end.
  Lemma step_settled o c arrays o' : settled o -> writer_step pd junk o c = Ok (arrays, o') -> settled o'.
  Proof.
    intros [Hk Hv]. destruct o as [w ov]. cbn [wo_writer wo_visitor] in *. destruct c as [p|f|evs|]; cbn [writer_step].
    - unfold cpp_set_precision. cbn [wo_writer wo_visitor]. destruct w; [discriminate Hk|discriminate..].
    - unfold cpp_set_flat_multipoint. cbn [wo_writer wo_visitor]. destruct w; [discriminate Hk|discriminate..].
    - unfold cpp_visitor. cbn [wo_writer wo_visitor].
      assert (forall v, keeps_kind v -> match feed v w evs with Some (w, c) => if c =? 0 then Ok ([], WriterObject w (Some v)) else Err c | None => UB end = Ok (arrays, o') -> settled o') as G.
      { intros v Hkv. destruct (feed v w evs) as [[w' c]|] eqn:E; [|discriminate]. destruct (c =? 0); [|discriminate]. intros H. injection H as _ <-. split; [|exact Hkv]. cbn [wo_writer].
        rewrite (feed_keeps v Hkv _ _ _ _ E). exact Hk. }
      destruct ov as [v|]; cbn [obind wo_writer wo_visitor]; [apply G; exact Hv|]. destruct (array_visitor pd junk w) as [v|c| |] eqn:E; cbn [throw_not_ok obind]; try discriminate.
      apply G. apply (visitor_keeps w). exact E.
    - unfold cpp_finish. cbn [wo_writer wo_visitor]. destruct (array_finish junk w) as [[[w' c] [a|]]|] eqn:E; [|discriminate..]. destruct (c =? 0); [|discriminate]. cbn [obind].
      intros H. injection H as _ <-. split; [|exact Hv]. cbn [wo_writer]. destruct w as [p f s|s|t w]; [discriminate Hk|..]; cbn [array_finish] in E.
      + destruct (wkb_finish s) as [[s' c'] a']. injection E as <- _ _. reflexivity.
      + destruct (writer_finish junk w) as [[a' w1]| | |]; try discriminate; injection E as <- _ _; reflexivity.
  Qed.
  Lemma calls_throw calls c rest : is_setting c = true -> forall o arrays o', settled o -> writer_calls pd junk o calls = Ok (arrays, o') ->
    writer_calls pd junk o (calls ++ c :: rest) = Err THROWN.
  Proof.
    intros Hc. induction calls as [|c1 calls IH]; intros o arrays o' Hs E; cbn [app writer_calls] in *.
    - destruct o as [w ov]. destruct Hs as [Hk _]. cbn [wo_writer] in Hk. destruct c; try discriminate Hc; destruct w; try discriminate Hk; reflexivity.
    - destruct (writer_step pd junk o c1) as [[a o1]| | |] eqn:E1; cbn [obind] in *; try discriminate. destruct (writer_calls pd junk o1 calls) as [[b o2]| | |] eqn:E2; cbn [obind] in E; try discriminate.
      rewrite (IH o1 b o2 (step_settled _ _ _ _ Hs E1) E2). reflexivity.
  Qed.
  Theorem settings_throw t calls arrays c rest : t <> TYPE_WKT -> writer_session pd junk t calls = Ok arrays -> is_setting c = true ->
    writer_session pd junk t (calls ++ c :: rest) = Err THROWN.
  Proof.
    intros Ht E Hc. unfold writer_session in *. destruct (new_writer junk t) as [o| | |] eqn:En; cbn [obind] in *; try discriminate.
    destruct (writer_calls pd junk o calls) as [[a o']| | |] eqn:E1; cbn [obind] in E; try discriminate.
    rewrite (calls_throw calls c rest Hc o a o'); [reflexivity| |exact E1]. unfold new_writer in En. unfold array_writer_init in En.
    destruct (_ || _ || _ || _); [discriminate|]. destruct (t =? TYPE_WKT) eqn:Et; [apply Z.eqb_eq in Et; contradiction|].
    destruct (t =? TYPE_WKB); [injection En as <-; split; [reflexivity|exact I]|]. destruct (writer_init junk t) as [w| | |]; cbn in En; try discriminate. injection En as <-. split; [reflexivity|exact I].
  Qed.
End Settings.
