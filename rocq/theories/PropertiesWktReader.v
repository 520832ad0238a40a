(** * C17 (WKT), C18, C19, C21, C47: the WKT reader *)
From Verif Require Import Base Text GeomSpec VisitorModel VisitorSpec VisitorFacts BufferModel BufferFacts WktSpec WktWriterModel WktWriterHistory
  WktReaderModel WktGrammar WktReaderProofs WktReaderGeoms WktReaderSafety WktReadable WktRoundtrip PropertiesVisit PropertiesWkbWriter PropertiesWktWriter.
Local Open Scope Z_scope.

(** In all of these, [parse] is the number parser, and [s0] the reader in whatever state an earlier use left it. *)

(** A parser for the examples: single decimal digits. *)
Definition ex_parse (t : bytes) : option N :=
  match t with
  | [c] => if ((48 <=? c) && (c <=? 57))%N then Some (c - 48)%N else None
  | _ => None
  end.
Lemma ex_number : number_parser ex_parse.
Proof. split; [reflexivity|]. intros [|c t]; reflexivity. Qed.

(** ** C17, for WKT *)
Theorem C17_wkt_visit : forall parse s0 src,
  nested_prefix (fst (trace (wkt_visit parse s0 src))) /\
  (forall u, snd (trace (wkt_visit parse s0 src)) = Ok u -> well_nested (fst (trace (wkt_visit parse s0 src)))).
Proof. exact (fun parse s0 src => nests_prefix _ (nests_wkt_visit parse s0 src)). Qed.
Print Assumptions C17_wkt_visit.

Theorem C17_wkt_visit_error : forall parse s0 src codes n,
  (forall k, (k < n)%nat -> codes k = 0) -> codes n <> 0 -> (n < length (fst (trace (wkt_visit parse s0 src))))%nat ->
  run (scripted codes) (wkt_visit parse s0 src) [] = Some (firstn (S n) (fst (trace (wkt_visit parse s0 src))), Err (codes n)).
Proof. exact (fun parse s0 src codes n => lawful_propagates _ codes n (lawful_wkt_visit parse s0 src)). Qed.
Print Assumptions C17_wkt_visit_error.

Example C17_wkt_ex : trace (wkt_visit ex_parse wkt_reader_init $"POLYGON ((1 2, x") =
    ([EFeatStart; EGeomStart 3 1; ERingStart], Err EINVAL) /\
  run (scripted (fun k => if Nat.eqb k 1 then 42 else 0)) (wkt_visit ex_parse wkt_reader_init $"POLYGON ((1 2, 3 4))") [] =
    Some ([EFeatStart; EGeomStart 3 1], Err 42).
Proof. split; vm_compute; reflexivity. Qed.

(** ** C18 *)

(** Full property, false: whitespace after the first parenthesis of a multipoint without inner parentheses is refused. *)
Theorem C18_flat_multipoint_refuted :
  number_parser ex_parse /\ wkt_text ex_parse true (GColl CMultipoint XY [GPoint XY [[1; 2]]]%N) $"MULTIPOINT ( 1 2)" /\
  trace (wkt_visit ex_parse wkt_reader_init $"MULTIPOINT ( 1 2)") = ([EFeatStart; EGeomStart 4 1], Err EINVAL).
Proof.
  split; [exact ex_number|]. split; [|vm_compute; reflexivity].
  exists [], $"MULTIPOINT ( 1 2)", []. split; [constructor|]. split; [|split; [constructor|reflexivity]].
  exists [], $" ", $"( 1 2)". split; [reflexivity|]. split; [repeat constructor|]. split; [|split; [discriminate|reflexivity]].
  right. exists $" ", $"1 2". split; [right; split; [reflexivity|repeat constructor]|]. split; [|reflexivity].
  exists $"1 2", []. split; [|split; [constructor|reflexivity]]. split; [reflexivity|]. split; [reflexivity|].
  exists $"1", $" ", $"2". split; [split; [reflexivity|repeat constructor; intros H; cbn in H; repeat destruct H as [H|H]; (discriminate H || contradiction)]|].
  split; [repeat constructor|]. split; [discriminate|]. split; [|reflexivity].
  split; [reflexivity|repeat constructor; intros H; cbn in H; repeat destruct H as [H|H]; (discriminate H || contradiction)].
Qed.
Print Assumptions C18_flat_multipoint_refuted.

(** Everything else in the grammar is accepted, whatever the whitespace, and delivered in batches of 1 to 64 coordinates.
    Missing from the full statement: [wkt_text parse true], which allows whitespace in that one place too. *)
Theorem C18_grammar_partial : forall parse, number_parser parse -> forall s0 g t, wkt_text parse false g t ->
  exists evs, trace (wkt_visit parse s0 t) = ([EFeatStart] ++ evs ++ [EFeatEnd], Ok tt) /\ geom_events g evs /\ batches_of_64 evs.
Proof. exact (fun parse H s0 g t => wkt_visit_complete parse H g t s0). Qed.
Print Assumptions C18_grammar_partial.

Definition C18_text : bytes := $"  GEOMETRYCOLLECTION( POLYGON((1 2 ,3   4, 1 2) ),LINESTRING  Z EMPTY) ".
Definition C18_geom : geom := GColl CCollection XY [GPoly XY [[[1; 2]; [3; 4]; [1; 2]]]; GLine XYZ []]%N.
Ltac word := split; [reflexivity|repeat constructor; intros H; cbn in H; repeat destruct H as [H|H]; (discriminate H || contradiction)].
Ltac ws := repeat constructor; cbn; auto.
Example C18_ex : number_parser ex_parse /\ wkt_text ex_parse false C18_geom C18_text.
Proof.
  split; [exact ex_number|].
  assert (forall a b s b1 t, numeral ex_parse a s -> numeral ex_parse b t -> blank b1 -> b1 <> [] -> coord_text ex_parse XY [a; b] (s ++ b1 ++ t)) as Hc.
  { intros a b s b1 t Ha Hb Hb1 Hn. split; [reflexivity|]. exists s, b1, t. auto. }
  exists $"  ", $"GEOMETRYCOLLECTION( POLYGON((1 2 ,3   4, 1 2) ),LINESTRING  Z EMPTY)", $" ".
  split; [ws|]. split; [|split; [ws|reflexivity]].
  exists [], [], $"( POLYGON((1 2 ,3   4, 1 2) ),LINESTRING  Z EMPTY)". split; [reflexivity|]. split; [constructor|]. split; [|split; [discriminate|reflexivity]].
  right. exists $" ", $"POLYGON((1 2 ,3   4, 1 2) ),LINESTRING  Z EMPTY". split; [ws|]. split; [|reflexivity].
  exists $"POLYGON((1 2 ,3   4, 1 2) )", []. split; [|split; [constructor|]].
  - exists [], [], $"((1 2 ,3   4, 1 2) )". split; [reflexivity|]. split; [constructor|]. split; [|split; [discriminate|reflexivity]].
    right. exists [], $"(1 2 ,3   4, 1 2) ". split; [constructor|]. split; [|reflexivity].
    exists $"(1 2 ,3   4, 1 2)", $" ". split; [|split; [ws|reflexivity]].
    right. exists [], $"1 2 ,3   4, 1 2". split; [constructor|]. split; [|reflexivity].
    exists $"1 2", $" ". split; [apply (Hc 1%N 2%N $"1" $" " $"2"); [word|word|ws|discriminate]|]. split; [ws|].
    exists [], $"3   4, 1 2". split; [constructor|]. split; [|reflexivity].
    exists $"3   4", []. split; [apply (Hc 3%N 4%N $"3" $"   " $"4"); [word|word|ws|discriminate]|]. split; [constructor|].
    exists $" ", $"1 2". split; [ws|]. split; [|reflexivity].
    exists $"1 2", []. split; [apply (Hc 1%N 2%N $"1" $" " $"2"); [word|word|ws|discriminate]|]. split; [constructor|reflexivity].
  - exists [], $"LINESTRING  Z EMPTY". split; [constructor|]. split; [|reflexivity].
    exists $"LINESTRING  Z EMPTY", []. split; [|split; [constructor|reflexivity]].
    exists $"  Z", $" ", $"EMPTY". split; [exists $"  "; split; [ws|split; [discriminate|reflexivity]]|]. split; [ws|].
    split; [left; auto|]. split; [discriminate|reflexivity].
Qed.

(** ** C19 *)

(** For every text the visit ends with success or EINVAL: it does not read outside the text ([UB]) and neither the nesting of
    its calls nor any of its loops exceeds the length of the text ([NoFuel]). *)
Theorem C19_terminates_in_bounds : forall parse s0 src,
  snd (trace (wkt_visit parse s0 src)) = Ok tt \/ snd (trace (wkt_visit parse s0 src)) = Err EINVAL.
Proof. exact wkt_visit_ends. Qed.
Print Assumptions C19_terminates_in_bounds.

(** "Reports success only if it consumed the whole text" is false: what follows a NUL is ignored. *)
Theorem C19_whole_text_refuted :
  trace (wkt_visit ex_parse wkt_reader_init ($"POINT (1 2)" ++ [0%N] ++ $"garbage")) =
    ([EFeatStart; EGeomStart 1 1; ECoords 2 [[1; 2]]%N; EGeomEnd; EFeatEnd], Ok tt).
Proof. vm_compute. reflexivity. Qed.
Print Assumptions C19_whole_text_refuted.

(** Without a NUL the whole text is consumed, and it is a text of the grammar. *)
Theorem C19_whole_text_partial : forall parse s0 src evs, ~ In 0%N src -> trace (wkt_visit parse s0 src) = (evs, Ok tt) ->
  exists g, wkt_text parse false g src.
Proof. exact wkt_visit_whole. Qed.
Print Assumptions C19_whole_text_partial.

Example C19_ex : ~ In 0%N C18_text /\ snd (trace (wkt_visit ex_parse wkt_reader_init C18_text)) = Ok tt /\
  snd (trace (wkt_visit ex_parse wkt_reader_init $"POINT (1 2")) = Err EINVAL.
Proof. split; [cbn; intros H; repeat destruct H as [H|H]; (discriminate H || contradiction)|]. split; vm_compute; reflexivity. Qed.

(** ** C47 *)
Theorem C47_only_wkt : forall parse s0 src evs, trace (wkt_visit parse s0 src) = (evs, Ok tt) ->
  exists g t rest evs', src = t ++ rest /\ wkt_text parse false g t /\ (rest = [] \/ exists r, rest = 0%N :: r) /\
    evs = [EFeatStart] ++ evs' ++ [EFeatEnd] /\ geom_events g evs' /\ batches_of_64 evs'.
Proof. exact wkt_visit_only. Qed.
Print Assumptions C47_only_wkt.

Example C47_ex : trace (wkt_visit ex_parse wkt_reader_init C18_text) =
  ([EFeatStart; EGeomStart 7 1; EGeomStart 3 1; ERingStart; ECoords 2 [[1; 2]; [3; 4]; [1; 2]]%N; ERingEnd; EGeomEnd;
    EGeomStart 2 2; EGeomEnd; EGeomEnd; EFeatEnd], Ok tt).
Proof. vm_compute. reflexivity. Qed.

(** ** C21 *)

(** A printer and a parser such that the parser inverts the printer on the ordinates of [g], and printed numbers contain
    neither whitespace nor commas, parentheses or NULs. *)
Definition inverts (parse : bytes -> option N) (print : N -> bytes) (g : geom) : Prop :=
  forall w, In w (ordinates g) -> parse (print w) = Some w /\ Forall (fun c => ~ ends_word c) (print w).

(** The full property is false for flat multipoints with empty and other members, and for members of other dimensions than the
    multi-geometry. *)
Definition C21_flat : geom := GColl CMultipoint XY [GPoint XY [[1; 2]]; GPoint XY []]%N.
Theorem C21_flat_empty_refuted : typed C21_flat /\ wf_geom C21_flat /\ uniform C21_flat /\ number_parser ex_parse /\
  inverts ex_parse (fun w => ex_print w 16) C21_flat /\
  snd (trace (wkt_visit ex_parse wkt_reader_init (wkt (fun w => ex_print w 16) true C21_flat))) = Err EINVAL.
Proof.
  split; [repeat constructor|]. split; [repeat constructor|]. split; [repeat constructor; intros ? ? [<-|[<-|[]]]; reflexivity|]. split; [exact ex_number|].
  split; [|vm_compute; reflexivity]. intros w [<-|[<-|[]]]; word.
Qed.
Print Assumptions C21_flat_empty_refuted.
Definition C21_mixed : geom := GColl CMultipoint XY [GPoint XYZ [[1; 2; 3]]]%N.
Theorem C21_mixed_dims_refuted : typed C21_mixed /\ wf_geom C21_mixed /\ readable false C21_mixed /\ number_parser ex_parse /\
  inverts ex_parse (fun w => ex_print w 16) C21_mixed /\
  snd (trace (wkt_visit ex_parse wkt_reader_init (wkt (fun w => ex_print w 16) false C21_mixed))) = Err EINVAL.
Proof.
  split; [repeat constructor|]. split; [repeat constructor|]. split; [repeat constructor; discriminate|]. split; [exact ex_number|].
  split; [|vm_compute; reflexivity]. intros w [<-|[<-|[<-|[]]]]; word.
Qed.
Print Assumptions C21_mixed_dims_refuted.

(** In all other cases the text that the writer appends for a geometry is read back as that geometry. *)
Theorem C21_roundtrip_partial : forall print_double parse, short print_double -> number_parser parse ->
  forall precision flat max, max < 0 -> forall g evs s s0,
  let cfg := wkt_config precision flat max in
  typed g -> wf_geom g -> (nesting g <= 32)%nat -> uniform g -> readable flat g -> inverts parse (fun w => print_double w (kc_precision cfg)) g ->
  geom_events g evs -> b_size (k_values s) < 2 ^ 31 -> buf_ok (k_values s) ->
  exists s' text evs', feed (wkt_step print_double cfg) s ([EFeatStart] ++ evs ++ [EFeatEnd]) = Some (s', 0) /\
    b_data (k_values s') = b_data (k_values s) ++ text /\
    trace (wkt_visit parse s0 text) = ([EFeatStart] ++ evs' ++ [EFeatEnd], Ok tt) /\ geom_events g evs'.
Proof. exact roundtrip. Qed.
Print Assumptions C21_roundtrip_partial.

Example C21_ex : short ex_print /\ number_parser ex_parse /\ typed C18_geom /\ wf_geom C18_geom /\ (nesting C18_geom <= 32)%nat /\ uniform C18_geom /\
  readable true C18_geom /\ inverts ex_parse (fun w => ex_print w 16) C18_geom /\ geom_events C18_geom (canon_events C18_geom).
Proof.
  split; [exact ex_short|]. split; [exact ex_number|]. split; [repeat constructor|]. split; [repeat constructor|]. split; [cbn; lia|].
  split; [constructor; [congruence|repeat constructor]|]. split; [constructor; [discriminate|repeat constructor]|].
  split; [|apply GeomFacts.canon_events_ok]. intros w H. cbn in H. repeat destruct H as [<-|H]; try contradiction; word.
Qed.
Example C21_flat_ex : let g := GColl CMultipoint XY [GPoint XY [[1; 2]]; GPoint XY [[3; 4]]]%N in uniform g /\ readable true g /\
  wkt (fun w => ex_print w 16) true g = $"MULTIPOINT (1 2, 3 4)".
Proof.
  split; [repeat constructor; intros ? ? [<-|[<-|[]]]; reflexivity|]. split; [|reflexivity].
  constructor; [right; intros g [<-|[<-|[]]]; discriminate|repeat constructor].
Qed.
