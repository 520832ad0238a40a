(** * WKT with printed numbers *)
From Verif Require Import Base BaseFacts Text TypesModel FloatModel FloatSpec RyuModel RyuSpec RyuDouble RyuReads PrintFallback GeomSpec VisitorModel VisitorSpec BufferModel BufferFacts NativeSpec
  WkbSpec WktSpec WktGrammar WktReadable WktRoundtrip SerialSpec WktReaderModel ArrayReaderModel NativeWriterModel NativeWriterSpec NativeVisitorSpec
  WkbWriterSpec WktWriterModel WktWriterSpec WktWriterHistory ConversionModel ConversionSpec ConversionProofs.
Local Open Scope Z_scope.

Lemma keeps_numeral parse p w : correctly_rounding parse -> 0 <= p <= 16 -> keeps p w -> numeral parse w (ryu_print w p).
Proof.
  intros Hc Hp Hk. destruct (keeps_reads p w Hp Hk) as (text & E & R). unfold ryu_print. rewrite E. split.
  { destruct (N.eq_dec w 0) as [->|Hw].
    - rewrite print_special in E by (lia || reflexivity). injection E as <-.
      apply (Hc $"0" 0%N 0 0); [reflexivity| |vm_compute; split; discriminate|vm_compute; split; [discriminate|reflexivity]|reflexivity|vm_compute; lia].
      apply (denotes_fixed false $"0" []). split; [constructor; [vm_compute; split; discriminate|constructor]|]. split; [constructor|]. split; left; reflexivity.
    - destruct R as (m & e & D & Hn). destruct Hk as [Hf Hk]. apply (Hc text w m e Hf D Hn).
      + destruct Hk as [C|(k & Hv & _)]; [congruence|]. destruct (value_finite w k Hv) as (H1 & _). pose proof (unsigned_range w) as U. split; [lia|].
        pose proof (Z.div_lt_upper_bound (unsigned w) (2 ^ 52) 2048 ltac:(lia) ltac:(lia)). pose proof (Z.div_mod (unsigned w) (2 ^ 52) ltac:(lia)).
        pose proof (Z.mod_pos_bound (unsigned w) (2 ^ 52) ltac:(lia)). nia.
      + intros U. exfalso. destruct Hk as [C|(k & Hv & Hk)]; [congruence|]. destruct (value_finite w k Hv) as (_ & Ek & _). rewrite U in Ek. change (magnitude 0) with 0 in Ek. rewrite Ek in Hk.
        pose proof (Z.pow_pos_nonneg 2 1074 ltac:(lia) ltac:(lia)). pose proof (Z.pow_pos_nonneg 10 (16 - p) ltac:(lia) ltac:(lia)). destruct Hk as [Hk|(v & Hv1 & Hk)]; nia.
      + destruct (prints_all w p ltac:(lia)) as (text' & E' & L). rewrite E in E'. injection E' as <-. lia. }
  destruct R as (m & e & D & _). apply denotes_chars in D. eapply Forall_impl; [|exact D]. unfold is_digit, ends_word. cbn [In]. intros c H X. lia.
Qed.

Lemma ryu_roundtrip parse : number_parser parse -> correctly_rounding parse -> forall precision flat max, max < 0 -> forall g evs s s0,
  let cfg := wkt_config precision flat max in
  typed g -> wf_geom g -> (nesting g <= 32)%nat -> uniform g -> readable flat g -> Forall (keeps (kc_precision cfg)) (WktReadable.ordinates g) ->
  geom_events g evs -> b_size (k_values s) < 2 ^ 31 -> buf_ok (k_values s) ->
  exists s' text evs', feed (wkt_step ryu_print cfg) s ([EFeatStart] ++ evs ++ [EFeatEnd]) = Some (s', 0) /\
    b_data (k_values s') = b_data (k_values s) ++ text /\
    trace (wkt_visit parse s0 text) = ([EFeatStart] ++ evs' ++ [EFeatEnd], Ok tt) /\ geom_events g evs'.
Proof.
  intros Hp Hc precision flat max Hm g evs s s0 cfg Hty Hwf Hn Hu Hr Hk. apply (roundtrip ryu_print parse ryu_short Hp precision flat max Hm g evs s s0 Hty Hwf Hn Hu Hr).
  intros w Hw. apply (keeps_numeral parse _ w Hc (config_precision precision flat max)). rewrite Forall_forall in Hk. apply Hk. exact Hw.
Qed.

Lemma ryu_chain parse junk k d fss : number_parser parse -> correctly_rounding parse -> (forall i j, is_byte (junk i j)) ->
  Forall (fun fs =>
    all_geoms (fun g => wf_geom g /\ of_kind k d g /\ Forall (keeps 16) (WktReadable.ordinates g)) fs /\
    Z.of_nat (length fs) < 2 ^ 63 /\ total_size fs < 2 ^ 31 /\ text_size ryu_print (wkt_config 16 true (-1)) fs < 2 ^ 31 /\ has_room k d fs) fss ->
  forall ts t,
  Forall (fun t' => t' = TYPE_WKB \/ t' = TYPE_WKT \/ exists l, t' = make_type (geometry_kind_code k) (dim_code d) (layout_code l)) ts ->
  k <> KBox -> converts_through parse ryu_print junk t ts fss.
Proof.
  intros Hp Hc Hj H. apply (converts_chain parse ryu_print junk k d fss Hp ryu_short Hj). eapply Forall_impl; [|exact H]. intros fs (Hg & R).
  split; [|exact R]. intros g Hin. destruct (Hg g Hin) as (H1 & H2 & H3). split; [exact H1|]. split; [exact H2|].
  eapply Forall_impl; [|exact H3]. intros w Hw. apply keeps_numeral; [exact Hc|lia|exact Hw].
Qed.

Lemma std_fixed expo fixed f k p negative ints frac : value64 f = DFinite k -> Z.abs k <= 10 ^ 17 * 2 ^ 1074 ->
  fixed f p = minus negative ++ ints ++ $"." ++ frac -> Forall is_digit frac -> (length (fixed f p) <= 39)%nat ->
  exists frac' n, print_double_std expo fixed f p = Ok (fixed_text negative ints frac') /\ frac = frac' ++ repeat 48%N n /\
    (frac' = [] \/ exists r c, frac' = r ++ [c] /\ c <> 48%N).
Proof.
  intros Hv Hk. apply fallback_ok. destruct (value_finite f k Hv) as (HE & Ek & _). rewrite which_ok by exact HE. unfold is_large. rewrite <- Ek.
  destruct (Z.ltb_spec (10 ^ 17 * 2 ^ 1074) (Z.abs k)); [lia|reflexivity].
Qed.
