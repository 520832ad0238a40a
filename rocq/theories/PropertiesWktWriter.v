(** * C20, C22, C23, C46: the WKT writer *)
From Verif Require Import Base Text GeomSpec VisitorModel VisitorSpec BufferModel BufferFacts ArraySpec WktSpec WktWriterModel WktWriterSpec
  WktWriterHistory WktWriterSafety PropertiesVisit PropertiesWkbWriter.
Local Open Scope Z_scope.

(** In all of these, [print_double] is the number printer: any that, as GeoArrowPrintDouble promises, writes at most 40
    characters at the precisions that the writer asks for. (PropertiesPrint.v: it keeps this promise.) *)
Definition short (print_double : N -> Z -> bytes) : Prop := forall w p, 0 <= p <= 16 -> (length (print_double w p) <= 40)%nat.

(** A printer for the examples: the last decimal digit. *)
Definition ex_print (w : N) (_ : Z) : bytes := [48 + w mod 10]%N.
Lemma ex_short : short ex_print.
Proof. intros w p _. cbn. lia. Qed.

(** ** C20 *)

Theorem C20_canonical : forall print_double, short print_double -> forall precision flat max, max < 0 -> forall g evs s,
  typed g -> wf_geom g -> (nesting g <= 32)%nat -> geom_events g evs -> b_size (k_values s) < 2 ^ 31 -> buf_ok (k_values s) ->
  let cfg := wkt_config precision flat max in
  exists s', feed (wkt_step print_double cfg) s ([EFeatStart] ++ evs ++ [EFeatEnd]) = Some (s', 0) /\
    b_data (k_values s') = b_data (k_values s) ++ wkt (fun w => print_double w (kc_precision cfg)) flat g /\
    k_offsets s' = k_offsets s ++ [to_int32 (b_size (k_values s))] /\ k_length s' = k_length s + 1.
Proof. exact (fun pd Hs p f m Hm g evs s => canonical_text pd Hs p f m g evs s Hm). Qed.
Print Assumptions C20_canonical.

(** Deeper geometries, and features that start beyond the reach of 32-bit offsets, are refused. *)
Theorem C20_too_deep : forall print_double, short print_double -> forall precision flat max, max < 0 -> forall g evs s,
  typed g -> wf_geom g -> (32 < nesting g)%nat -> geom_events g evs -> b_size (k_values s) < 2 ^ 31 -> buf_ok (k_values s) ->
  exists s', feed (wkt_step print_double (wkt_config precision flat max)) s ([EFeatStart] ++ evs ++ [EFeatEnd]) = Some (s', EINVAL).
Proof.
  exact (fun pd Hs p f m Hm g evs s Hty Hwf Hn He Hsz Hok =>
    match feature_too_deep pd Hs (wkt_config p f m) (config_precision p f m) s g _ (fe_geom g evs He) Hty Hwf Hn Hm
            (proj1 (Z.lt_succ_r _ 2147483647) Hsz) Hok with
    | ex_intro _ s' (conj _ F) => ex_intro _ s' F
    end).
Qed.
Print Assumptions C20_too_deep.

Theorem C20_too_big : forall print_double cfg f evs s, feature_events f evs -> 2 ^ 31 <= b_size (k_values s) ->
  exists s', wkt_feature print_double cfg s evs = Some (s', EOVERFLOW).
Proof. exact (fun pd cfg f evs s He Hsz => feature_overflow pd cfg s f evs He (proj1 (Z.le_succ_l 2147483647 _) Hsz)). Qed.
Print Assumptions C20_too_big.

Example C20_ex : short ex_print /\ typed C13_geom /\ wf_geom C13_geom /\ (nesting C13_geom <= 32)%nat /\ geom_events C13_geom C08_events /\
  wkt (fun w => ex_print w 16) false C13_geom = $"GEOMETRYCOLLECTION (POLYGON ((1 2, 3 4, 1 2)), LINESTRING Z EMPTY)".
Proof.
  split; [exact ex_short|]. split; [repeat constructor|]. split; [apply C13_ex|]. split; [cbn; lia|]. split; [apply C08_ex|reflexivity].
Qed.
(** Nested and flat multipoints. *)
Example C20_multipoint_ex : let g := GColl CMultipoint XY [GPoint XY [[1; 2]]; GPoint XY []; GPoint XY [[3; 4]]]%N in
  typed g /\ wf_geom g /\ wkt (fun w => ex_print w 16) false g = $"MULTIPOINT ((1 2), EMPTY, (3 4))" /\
  wkt (fun w => ex_print w 16) true g = $"MULTIPOINT (1 2, EMPTY, 3 4)".
Proof. split; [repeat constructor|]. split; [repeat constructor|]. split; reflexivity. Qed.
Example C20_deep_ex : geom_events (C08_tower 32) (canon_events (C08_tower 32)) /\ typed (C08_tower 32) /\ wf_geom (C08_tower 32) /\
  (32 < nesting (C08_tower 32))%nat.
Proof. split; [apply GeomFacts.canon_events_ok|]. split; [repeat constructor|]. split; [repeat constructor|vm_compute; lia]. Qed.

(** ** C22 *)

(** The full property is false: after a null, elements are not cut. Here the limit is 3. *)
Definition C22_line : geom := GLine XY [[1; 2]; [3; 4]]%N.
Definition C22_evss : list (list event) :=
  [[EFeatStart; ENullFeat; EFeatEnd]; [EFeatStart] ++ canon_events C22_line ++ [EFeatEnd]].
Theorem C22_after_null_refuted :
  kclean wkt_init /\ Forall2 feature_events [None; Some C22_line] C22_evss /\
  exists s', run_features ex_print (wkt_config 16 false 3) wkt_init C22_evss = Some (s', 0) /\
  exists s'' a, wkt_finish s' = (s'', 0, Some a) /\ element a 1 = Some $"LINESTRING (1 2" /\ (3 < length $"LINESTRING (1 2")%nat.
Proof.
  split; [split; reflexivity|]. split; [repeat constructor; apply GeomFacts.canon_events_ok|].
  assert (match run_features ex_print (wkt_config 16 false 3) wkt_init C22_evss with
          | Some (s', c) => match wkt_finish s' with (_, c2, Some a) => (c, c2, element a 1) = (0, 0, Some $"LINESTRING (1 2") | _ => False end
          | None => False end) as H by (vm_compute; reflexivity).
  destruct (run_features _ _ _ _) as [[s' c]|]; [|contradiction]. destruct (wkt_finish s') as [[s'' c2] [a|]] eqn:E; [|contradiction].
  injection H as -> -> H. exists s'. split; [reflexivity|]. exists s'', a. split; [exact E|]. split; [exact H|vm_compute; lia].
Qed.
Print Assumptions C22_after_null_refuted.

(** What holds: as long as no null came before, elements are exactly the first [max] bytes of the unlimited text ... *)
Theorem C22_no_null_before_partial : forall print_double, short print_double -> forall precision flat max gs k evss s s',
  let cfg := wkt_config precision flat max in
  0 <= max -> kclean s -> Forall typed gs -> Forall wf_geom gs -> Forall (fun g => (nesting g <= 32)%nat) gs ->
  Forall2 feature_events (map Some gs ++ repeat None k) evss ->
  run_features print_double cfg s evss = Some (s', 0) -> max * Z.of_nat (length gs) < 2 ^ 31 ->
  exists s'' a, wkt_finish s' = (s'', 0, Some a) /\
    array_holds a (map (fun g => Some (firstn (Z.to_nat max) (wkt (fun w => print_double w (kc_precision cfg)) flat g))) gs ++ repeat None k).
Proof. exact limit_no_null. Qed.
Print Assumptions C22_no_null_before_partial.

(** ... and in any case every element is a prefix of the unlimited text. Missing: the limit for geometries after a null. *)
Theorem C22_prefix_partial : forall print_double, short print_double -> forall precision flat max fs evss s s',
  let cfg := wkt_config precision flat max in
  kclean s -> Forall expressible fs -> Forall shallow fs -> Forall2 feature_events fs evss ->
  run_features print_double cfg s evss = Some (s', 0) -> text_size print_double cfg fs < 2 ^ 31 ->
  exists s'' a els, wkt_finish s' = (s'', 0, Some a) /\ array_holds a els /\ kclean s'' /\
    Forall2 (fun f e => match f, e with
                        | None, None => True
                        | Some g, Some b => exists q, wkt (fun w => print_double w (kc_precision cfg)) flat g = b ++ q
                        | _, _ => False
                        end) fs els.
Proof. exact limit_prefix. Qed.
Print Assumptions C22_prefix_partial.

Definition C22_ex_evss : list (list event) :=
  [[EFeatStart] ++ canon_events C22_line ++ [EFeatEnd]; [EFeatStart] ++ canon_events C22_line ++ [EFeatEnd]; [EFeatStart; ENullFeat; EFeatEnd]].
Example C22_ex : let gs := [C22_line; C22_line] in
  Forall typed gs /\ Forall wf_geom gs /\ Forall (fun g => (nesting g <= 32)%nat) gs /\
  Forall2 feature_events (map Some gs ++ repeat None 1) C22_ex_evss /\
  match run_features ex_print (wkt_config 16 false 14) wkt_init C22_ex_evss with
  | Some (s', c) => match wkt_finish s' with (_, c2, Some a) => (c, c2, element a 1) = (0, 0, Some $"LINESTRING (1 ") | _ => False end
  | None => False
  end.
Proof.
  split; [repeat constructor|]. split; [repeat constructor|]. split; [repeat constructor; cbn; lia|].
  split; [repeat constructor; apply GeomFacts.canon_events_ok|]. vm_compute. reflexivity.
Qed.
Example C22_prefix_ex : Forall expressible [None; Some C22_line] /\ Forall shallow [None; Some C22_line].
Proof.
  split; (constructor; [intros ? [=]|constructor; [|constructor]]); intros ? [= <-]; [split; repeat constructor|cbn; lia].
Qed.

(** ** C23 *)

(** From a new or just finished writer, after features [fs] that were all written, Finish gives the array of their texts (and
    a writer that again holds nothing), or EOVERFLOW when they do not fit. *)
Theorem C23_history : forall print_double, short print_double -> forall precision flat max evss fs s s',
  let cfg := wkt_config precision flat max in
  kclean s -> max < 0 -> Forall2 feature_events fs evss -> Forall expressible fs ->
  run_features print_double cfg s evss = Some (s', 0) ->
  (text_size print_double cfg fs < 2 ^ 31 ->
     exists s'' a, wkt_finish s' = (s'', 0, Some a) /\ array_holds a (map (feature_text print_double cfg) fs) /\ kclean s'') /\
  (2 ^ 31 <= text_size print_double cfg fs -> wkt_finish s' = (s', EOVERFLOW, None)).
Proof. exact (fun pd Hs p f m => wkt_history pd Hs (wkt_config p f m) (config_precision p f m)). Qed.
Print Assumptions C23_history.

Definition C23_evss : list (list event) :=
  [[EFeatStart] ++ C08_events ++ [EFeatEnd]; [EFeatStart; ENullFeat; EFeatEnd]; [EFeatStart] ++ canon_events C22_line ++ [EFeatEnd]].
Example C23_ex : kclean wkt_init /\ Forall2 feature_events [Some C13_geom; None; Some C22_line] C23_evss /\
  Forall expressible [Some C13_geom; None; Some C22_line] /\
  match run_features ex_print (wkt_config 16 false (-1)) wkt_init C23_evss with Some (_, c) => c = 0 | None => False end /\
  text_size ex_print (wkt_config 16 false (-1)) [Some C13_geom; None; Some C22_line] = 87.
Proof.
  split; [split; reflexivity|]. split; [constructor; [constructor; apply C08_ex|repeat constructor; apply GeomFacts.canon_events_ok]|].
  split; [|split; vm_compute; reflexivity].
  constructor; [|constructor; [|constructor; [|constructor]]]; intros ? [=]; subst; repeat constructor.
Qed.

(** ** C46 *)

(** The full property is false: coordinates before the first feature read a counter that was never written ... *)
Theorem C46_no_feature_refuted : feed (wkt_step ex_print (wkt_config 16 false (-1))) wkt_init [ECoords 2 [[1; 2]%N]] = None.
Proof. reflexivity. Qed.
Print Assumptions C46_no_feature_refuted.

(** ... and so does a call that follows a refused geom_start. *)
Theorem C46_after_error_refuted : exists s1 s2,
  feed (wkt_step ex_print (wkt_config 16 false (-1))) wkt_init [EFeatStart] = Some (s1, 0) /\
  wkt_step ex_print (wkt_config 16 false (-1)) s1 (EGeomStart 0 1) = VRet s2 EINVAL /\
  wkt_step ex_print (wkt_config 16 false (-1)) s2 (ECoords 2 [[1; 2]%N]) = VUB.
Proof. eexists; eexists. split; [reflexivity|]. split; reflexivity. Qed.
Print Assumptions C46_after_error_refuted.

(** What holds: from any state, calls in any order, well nested or not, of which the first is feat_start, up to the first
    that fails. Missing: calls after an error. *)
Theorem C46_any_order_partial : forall print_double, short print_double -> forall precision flat max s evs,
  buf_ok (k_values s) -> Forall view_event evs ->
  feed (wkt_step print_double (wkt_config precision flat max)) s (EFeatStart :: evs) <> None /\
  wkt_feature print_double (wkt_config precision flat max) s (EFeatStart :: evs) <> None.
Proof.
  exact (fun pd Hs p f m s evs Hok Hv => any_order_safe pd Hs (wkt_config p f m) (config_precision p f m) s evs Hok Hv).
Qed.
Print Assumptions C46_any_order_partial.

Example C46_ex : let evs := [EGeomStart 1 1; ERingStart; ECoords 2 [[1; 2]; [3; 4]]%N; EGeomEnd; EFeatEnd; EGeomEnd; ERingEnd; ECoords 3 []] in
  buf_ok (k_values wkt_init) /\ Forall view_event evs.
Proof. split; [vm_compute; discriminate|]. repeat constructor; cbn; lia. Qed.
