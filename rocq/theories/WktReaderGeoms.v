From Verif Require Import Base BaseFacts Text GeomSpec GeomFacts VisitorModel VisitorSpec VisitorFacts WktSpec WktReaderModel WktGrammar WktReaderFacts WktReaderProofs WktReaderBodies.
Local Open Scope Z_scope.

Section Parser.
Variable parse : bytes -> option N.
Hypothesis number : number_parser parse.

Definition flat_text (d : dim) (parts : list geom) (t : bytes) : Prop :=
  exists u, list_text (flat_member parse d) parts u /\ t = $"(" ++ u ++ $")".
Definition multipoint_list (d : dim) (s : rst) : prog rst :=
  let! c := Ret (peek s) in
  if negb (c =? chr_open)%N && negb (c =? chr_E)%N then
    let! s := Ret (step_back s) in
    read_multipoint_flat parse (dimN d) s
  else read_items (read_member 1 (dimN d) (read_point parse)) s.

Lemma flat_solid d g t r : flat_member parse d g t -> no_space (t ++ r) /\ hd 0%N (t ++ r) <> 69%N /\ hd 0%N (t ++ r) <> 40%N.
Proof. intros (c & _ & _ & H). destruct (ordinates_solid parse number c t r H) as (A & _ & B & C). auto. Qed.

Lemma multi_flat_complete d parts s b t r : good s -> dims_are d s -> blank b -> r_rest s = b ++ t ++ r -> flat_text d parts t ->
  exists e s', trace (read_multipoint parse (dimN d) s) = (e, Ok s') /\ parts_ev parts e /\ dims_are d s' /\ moved s (b ++ t) s'.
Proof.
  intros Hg Hd Hb Hr (u & Hu & ->). unfold read_multipoint, empty_or. rewrite <- !app_assoc in Hr.
  rewrite (skip_space_ok s b ($"(" ++ u ++ $")" ++ r) Hg Hr Hb) by reflexivity. rewrite trace_ret_bind.
  rewrite (peek_ok _ (past_good _ _ _)), past_rest, trace_ret_bind.
  change (hd 0%N ($"(" ++ u ++ $")" ++ r) =? chr_open)%N with true. cbv iota. change 1%nat with (length $"(") at 1.
  rewrite (radvance_ok _ $"(" (u ++ $")" ++ r) (past_good _ _ _) (past_rest _ _ _)), trace_ret_bind, past_past.
  assert (no_space (u ++ $")" ++ r) /\ hd 0%N (u ++ $")" ++ r) <> 69%N /\ hd 0%N (u ++ $")" ++ r) <> 40%N) as (Hn & H69 & H40).
  { destruct parts as [|x xs]; [contradiction|]. apply list_tail in Hu as (t1 & b1 & v & H1 & _ & _ & ->). rewrite <- app_assoc. eapply flat_solid; exact H1. }
  rewrite (skip_space_ok _ [] (u ++ $")" ++ r) (past_good _ _ _) (past_rest _ _ _) ltac:(constructor) Hn), trace_ret_bind.
  rewrite past_past, app_nil_r. rewrite (peek_ok _ (past_good _ _ _)), past_rest, trace_ret_bind.
  destruct (N.eqb_spec (hd 0%N (u ++ $")" ++ r)) chr_open) as [E|_]; [contradiction|].
  destruct (N.eqb_spec (hd 0%N (u ++ $")" ++ r)) chr_E) as [E|_]; [contradiction|]. cbn [negb andb].
  assert (step_back (past s (b ++ $"(") (u ++ $")" ++ r)) = Ok (past s b ($"(" ++ u ++ $")" ++ r))) as ->.
  { unfold step_back. rewrite past_before, rev_app_distr. change (rev $"(") with [40%N]. cbn [app]. f_equal. unfold past, rmove. cbn [r_rest r_size r_nvals r_cache].
    f_equal. generalize (u ++ $")" ++ r). intros v. change (length ($"(" ++ v)) with (S (length v)). lia. }
  rewrite trace_ret_bind. unfold read_multipoint_flat. rewrite (assert_char_ok _ chr_open (u ++ $")" ++ r) (past_good _ _ _) (past_rest _ _ _)), trace_ret_bind, past_past.
  set (s1 := past s _ _). assert (moved s (b ++ $"(") s1) as M1 by (apply moved_past; rewrite Hr, <- app_assoc; reflexivity).
  destruct (read_items_complete (flat_member parse d) geom_ev parts_ev (dims_are d) (S (length (r_rest s1))) (flat_point parse (dimN d))) with (xs := parts) (s := s1) (u := u) (r := r)
    as (e & s2 & T & He & Hd2 & M2).
  - apply parts_ev_nil.
  - apply parts_ev_snoc.
  - apply dims_past.
  - apply flat_point_complete; exact number.
  - intros. eapply flat_solid; eassumption.
  - apply past_good.
  - exact Hd.
  - lia.
  - reflexivity.
  - exact Hu.
  - exists e, s2. split; [exact T|]. split; [exact He|]. split; [exact Hd2|]. eapply moved_trans in M2; [|exact M1]. rewrite <- !app_assoc in M2. exact M2.
Qed.

Lemma multi_points_complete d : multi_complete (points_member parse d) d (read_multipoint parse (dimN d)).
Proof.
  intros parts s b t r Hg Hd Hb Hr Ht Hw.
  eapply (empty_or_complete (points_member parse d) parts_ev (dims_are d) (length (r_rest s)) (multipoint_list d)); try eassumption; try lia.
  - apply parts_ev_nil.
  - apply dims_past.
  - generalize (length (r_rest s)). clear - number. intros bound parts s u r Hg Hd Hb Hr Hu.
    assert (hd 0%N (r_rest s) = 40%N \/ hd 0%N (r_rest s) = 69%N) as Hh.
    { destruct parts as [|x xs]; [contradiction|]. apply list_tail in Hu as (t1 & b1 & v & (cs & _ & _ & H1) & _ & _ & ->). rewrite Hr.
      destruct H1 as [[_ ->]|(b' & u' & _ & _ & ->)]; [right|left]; reflexivity. }
    unfold multipoint_list. rewrite (peek_ok s Hg), trace_ret_bind.
    assert (negb (hd 0%N (r_rest s) =? chr_open)%N && negb (hd 0%N (r_rest s) =? chr_E)%N = false) as -> by (destruct Hh as [-> | ->]; reflexivity).
    eapply (read_items_complete (points_member parse d) geom_ev parts_ev (dims_are d) bound); try eassumption.
    + apply parts_ev_nil.
    + apply parts_ev_snoc.
    + apply dims_past.
    + apply read_member_complete with (E := seq_ev d); [apply point_geom_ev|]. intros x s0 t0 r0 Hg0 Hd0 Hr0 [Hl Hx] Hw0.
      apply (read_point_complete parse number d x s0 [] t0 r0); try assumption. constructor.
    + intros g v r0 (x & _ & _ & H). eapply empty_or_solid; exact H.
  - intros g v r0 (x & _ & _ & H). eapply empty_or_solid; exact H.
Qed.

Lemma blank_rev_open b b0 : blank b -> forall c b1, rev b ++ $"(" ++ b0 = c :: b1 -> c = 40%N -> b = [].
Proof.
  intros Hb c b1 E Hc. destruct (rev b) as [|x y] eqn:Er; [apply (f_equal (@rev N)) in Er; rewrite rev_involutive in Er; exact Er|].
  injection E as -> _. subst c. assert (In 40%N b) as Hin by (apply in_rev; rewrite Er; left; reflexivity).
  exfalso. eapply Forall_forall in Hb; [|exact Hin]. cbn in Hb. lia.
Qed.

Lemma multi_points_sound d s : good s -> dims_are d s ->
  post (read_multipoint parse (dimN d) s) (fun e s' => exists parts b t, blank b /\ (empty_or_text (points_member parse d) parts t \/ flat_text d parts t) /\
    parts_ev parts e /\ dims_are d s' /\ moved s (b ++ t) s').
Proof.
  intros Hg Hd. unfold read_multipoint, empty_or. destruct (skip_space_any s Hg) as (b & r1 & E1 & Hb & Hn & ->). rewrite trace_ret_bind.
  rewrite (peek_ok _ (past_good _ _ _)), past_rest, trace_ret_bind. destruct (N.eqb_spec (hd 0%N r1) chr_open) as [Eo|Eo].
  2:{ destruct (assert_empty_any (past s b r1) (past_good _ _ _)) as [(r & E2 & _ & ->)| ->]; [|apply post_err]. apply post_ret. rewrite past_rest in E2.
      exists [], b, $"EMPTY". split; [exact Hb|]. split; [left; left; auto|]. split; [apply parts_ev_nil|]. split; [exact Hd|].
      rewrite past_past. apply moved_past. rewrite E1, E2, <- app_assoc. reflexivity. }
  destruct r1 as [|c r1]; [discriminate Eo|]. cbn in Eo. subst c. change 1%nat with (length $"(") at 1.
  rewrite (radvance_ok _ $"(" r1 (past_good _ _ _) (past_rest _ _ _)), trace_ret_bind, past_past.
  destruct (skip_space_any (past s (b ++ $"(") r1) (past_good _ _ _)) as (b' & r2 & E2 & Hb' & Hn2 & ->). rewrite trace_ret_bind, past_past.
  rewrite past_rest in E2. rewrite (peek_ok _ (past_good _ _ _)), past_rest, trace_ret_bind.
  assert (moved s ((b ++ $"(") ++ b') (past s ((b ++ $"(") ++ b') r2)) as M1 by (apply moved_past; rewrite E1, E2, <- !app_assoc; reflexivity).
  destruct (negb (hd 0%N r2 =? chr_open)%N && negb (hd 0%N r2 =? chr_E)%N).
  - unfold step_back. rewrite past_before, !rev_app_distr. change (rev $"(") with [40%N].
    destruct (rev b' ++ [40%N] ++ rev b ++ r_before s) as [|c b1] eqn:Eb; [destruct (rev b'); discriminate Eb|].
    replace ((rev b' ++ [40%N] ++ rev b) ++ r_before s) with (c :: b1) by (rewrite <- Eb, <- !app_assoc; reflexivity). rewrite trace_ret_bind.
    unfold read_multipoint_flat. rewrite past_rest. set (s1 := rmove _ b1 (c :: r2) _).
    assert (good s1) as G1 by (unfold good, s1; cbn; lia).
    destruct (assert_char_any s1 chr_open G1) as [(r3 & E3 & ->)|[_ ->]]; [|apply post_err]. rewrite trace_ret_bind.
    cbn in E3. injection E3 as -> <-. pose proof (blank_rev_open b' (rev b ++ r_before s) Hb' _ _ Eb eq_refl) as ->. cbn in Eb. injection Eb as <-.
    assert (past s1 [chr_open] r2 = past s (b ++ $"(") r2) as ->.
    { assert (rev (b ++ $"(") = 40%N :: rev b) as Eb by (rewrite rev_app_distr; reflexivity).
      unfold s1, past, rmove. cbn [r_before r_nvals r_cache]. rewrite Eb. reflexivity. }
    rewrite app_nil_r in M1. set (s2 := past s (b ++ $"(") r2) in *.
    eapply post_weaken; [apply (read_items_sound (flat_member parse d) geom_ev parts_ev (dims_are d) (S (length (r_rest s2))))|].
    + apply parts_ev_nil.
    + apply parts_ev_snoc.
    + apply dims_past.
    + apply flat_point_sound.
    + apply past_good.
    + exact Hn2.
    + exact Hd.
    + lia.
    + intros e s3 (parts & u & Hu & He & Hd3 & M2). exists parts, b, ($"(" ++ u ++ $")"). split; [exact Hb|].
      split; [right; exists u; auto|]. split; [exact He|]. split; [exact Hd3|]. eapply moved_trans in M2; [|exact M1]. rewrite <- !app_assoc in M2. exact M2.
  - set (s2 := past s ((b ++ $"(") ++ b') r2) in *.
    eapply post_weaken; [apply (read_items_sound (points_member parse d) geom_ev parts_ev (dims_are d) (S (length (r_rest s2))))|].
    + apply parts_ev_nil.
    + apply parts_ev_snoc.
    + apply dims_past.
    + apply read_member_sound with (E := seq_ev d); [apply point_geom_ev|]. intros s0 Hg0 Hd0. eapply post_weaken; [apply (read_point_sound parse d); assumption|].
      intros e0 s0' (cs & b0 & t0 & A & B & C & D). exists cs, b0, t0. split; [exact A|]. split; [split; assumption|exact D].
    + apply past_good.
    + exact Hn2.
    + exact Hd.
    + lia.
    + intros e s3 (parts & u & Hu & He & Hd3 & M2). exists parts, b, ($"(" ++ b' ++ u ++ $")"). split; [exact Hb|].
      split; [left; right; exists b', u; auto|]. split; [exact He|]. split; [exact Hd3|]. eapply moved_trans in M2; [|exact M1]. rewrite <- !app_assoc in M2. exact M2.
Qed.

(** ** Tagged geometries *)
Definition type_tag (t : N) : bytes :=
  match t with
  | 1 => $"POINT" | 2 => $"LINESTRING" | 3 => $"POLYGON" | 4 => $"MULTIPOINT" | 5 => $"MULTILINESTRING" | 6 => $"MULTIPOLYGON"
  | _ => $"GEOMETRYCOLLECTION"
  end%N.
Lemma wkt_tag_code g : wkt_tag g = type_tag (geom_code g).
Proof. destruct g as [| | |[| | |]]; reflexivity. Qed.
Lemma type_of_word_some w t : type_of_word w = Some t -> w = type_tag t /\ (1 <= t <= 7)%N.
Proof.
  unfold type_of_word. repeat (destruct (word_is w _) eqn:?W; [intros [= <-]; apply word_is_true in W; split; [exact W|lia]|clear W]). discriminate.
Qed.
Lemma type_of_tag g : type_of_word (wkt_tag g) = Some (geom_code g).
Proof. destruct g as [| | |[| | |]]; reflexivity. Qed.
Lemma tag_plain g : plain (wkt_tag g).
Proof. apply plain_words. destruct g as [| | |[| | |]]; reflexivity. Qed.
Lemma tag_short g : firstn 19 (wkt_tag g) = wkt_tag g.
Proof. destruct g as [| | |[| | |]]; reflexivity. Qed.
Lemma tag_solid g r : no_space (wkt_tag g ++ r).
Proof. destruct g as [| | |[| | |]]; reflexivity. Qed.
Lemma tag_long g : (5 <= length (wkt_tag g))%nat.
Proof. destruct g as [| | |[| | |]]; vm_compute; lia. Qed.

Definition dim_word (d : dim) : bytes := match d with XY => [] | XYZ => $"Z" | XYM => $"M" | XYZM => $"ZM" end.
Lemma dims_of_dim_word d : d <> XY -> dims_of_word (dim_word d) = (dimN d, N.of_nat (ndim d), length (dim_word d)).
Proof. destruct d; [congruence| | |]; reflexivity. Qed.
Lemma dims_of_word_cases w : (exists d, d <> XY /\ w = dim_word d) \/ (dims_of_word w = (dimN XY, N.of_nat (ndim XY), O)).
Proof.
  unfold dims_of_word. destruct (word_is w $"Z") eqn:W1; [left; exists XYZ; apply word_is_true in W1; split; [discriminate|exact W1]|].
  destruct (word_is w $"M") eqn:W2; [left; exists XYM; apply word_is_true in W2; split; [discriminate|exact W2]|].
  destruct (word_is w $"ZM") eqn:W3; [left; exists XYZM; apply word_is_true in W3; split; [discriminate|exact W3]|]. right. reflexivity.
Qed.

Definition starts (u : bytes) : Prop := (exists v, u = $"(" ++ v) \/ u = $"EMPTY".
Lemma empty_or_starts {A} (R : A -> bytes -> Prop) xs t : empty_or_text R xs t -> starts t.
Proof. intros [[_ ->]|(b & u & _ & _ & ->)]; [right; reflexivity|left; eexists; reflexivity]. Qed.
Lemma body_starts lax g t : body_text parse lax g t -> starts t.
Proof.
  destruct g as [d cs|d cs|d rings|[| | |] d parts]; cbn [body_text]; intros H.
  - eapply empty_or_starts; exact (proj2 H).
  - eapply empty_or_starts; exact H.
  - eapply empty_or_starts; exact H.
  - destruct H as [H|(b & u & _ & _ & ->)]; [eapply empty_or_starts; exact H|left; eexists; reflexivity].
  - eapply empty_or_starts; exact H.
  - eapply empty_or_starts; exact H.
  - eapply empty_or_starts; exact H.
Qed.
Lemma starts_solid u r : starts u -> no_space (u ++ r).
Proof. intros [[v ->]| ->]; reflexivity. Qed.
Lemma starts_word u r : starts u -> word_end r -> exists w v, (w = [] \/ w = $"EMPTY") /\ u ++ r = w ++ v /\ plain w /\ word_end v.
Proof.
  intros [[v ->]| ->] Hr.
  - exists [], (($"(" ++ v) ++ r). split; [auto|]. split; [reflexivity|]. split; [constructor|]. change (ends_word 40). unfold ends_word. cbn. lia.
  - exists $"EMPTY", r. split; [auto|]. split; [reflexivity|]. split; [apply plain_empty|exact Hr].
Qed.
Lemma sep_word_end b u r : blank b -> starts u -> (u = $"EMPTY" -> b <> []) -> word_end (b ++ u ++ r).
Proof.
  intros Hb [[v ->]| ->] He.
  - apply blank_word_end; [exact Hb|]. change (ends_word 40). unfold ends_word. cbn. lia.
  - destruct b as [|c b]; [specialize (He eq_refl); congruence|]. inversion Hb as [|? ? Hc]; subst. apply is_space_blank in Hc. cbn. apply space_ends, Hc.
Qed.
Lemma plain_not_end t r : plain t -> t <> [] -> ~ word_end (t ++ r).
Proof. intros H Hn Hw. destruct t as [|c t]; [congruence|]. inversion H as [|? ? Hc]; subst. apply Hc. exact Hw. Qed.
Lemma dim_word_plain d : plain (dim_word d).
Proof. apply plain_words. destruct d; reflexivity. Qed.
Lemma dim_text_split d dt : dim_text d dt -> exists b0, blank b0 /\ (d <> XY -> b0 <> []) /\ dt = b0 ++ dim_word d.
Proof.
  destruct d; cbn [dim_text dim_word].
  - intros ->. exists []. repeat split; [constructor|congruence].
  - intros (b & A & B & ->). eauto.
  - intros (b & A & B & ->). eauto.
  - intros (b & A & B & ->). eauto.
Qed.
Lemma rset_past s n t r : rset_nvals (past s t r) n = past (rset_nvals s n) t r.
Proof. reflexivity. Qed.

(** From the tag to the body. *)
Lemma head_complete g s dt b u r : good s -> r_rest s = (wkt_tag g ++ dt ++ b ++ u) ++ r -> dim_text (geom_dim g) dt -> blank b -> starts u ->
  (u = $"EMPTY" -> b <> []) -> word_end r ->
  exists s1 s2 s3 w k b' x, skip_space s = Ok s /\ peek_word s 19 = Ok (wkt_tag g) /\ radvance s (length (wkt_tag g)) = Ok s1 /\
    skip_space s1 = Ok s2 /\ peek_word s2 3 = Ok w /\ dims_of_word w = (dimN (geom_dim g), N.of_nat (ndim (geom_dim g)), k) /\
    radvance (rset_nvals s2 (N.of_nat (ndim (geom_dim g)))) k = Ok s3 /\ dims_are (geom_dim g) s3 /\ blank b' /\ r_rest s3 = b' ++ u ++ r /\
    moved s (wkt_tag g ++ x) s3 /\ dt ++ b = x ++ b'.
Proof.
  intros Hg Hr Hdt Hb Hst He Hw. apply dim_text_split in Hdt as (b0 & Hb0 & Hne & ->). set (d := geom_dim g) in *.
  assert (r_rest s = wkt_tag g ++ b0 ++ dim_word d ++ b ++ u ++ r) as Hr' by (rewrite Hr, <- !app_assoc; reflexivity).
  pose proof (sep_word_end b u r Hb Hst He) as Hwb.
  assert (word_end (b0 ++ dim_word d ++ b ++ u ++ r)) as Hw0.
  { destruct d; [destruct b0 as [|]; [exact Hwb|]|..]; try (destruct b0 as [|c0 b0]; [exfalso; apply Hne; congruence|]);
      inversion Hb0 as [|? ? Hc]; subst; cbn; apply space_ends, is_space_blank, Hc. }
  exists (past s (wkt_tag g) (b0 ++ dim_word d ++ b ++ u ++ r)).
  assert (skip_space s = Ok s) as E0.
  { rewrite <- (past_nil s Hg) at 2. apply skip_space_ok; [exact Hg|reflexivity|constructor|]. rewrite Hr'. apply tag_solid. }
  assert (peek_word s 19 = Ok (wkt_tag g)) as E1.
  { change 19 with (Z.of_nat 19). rewrite (peek_word_max s (wkt_tag g) _ 19 Hg Hr' (tag_plain g) Hw0), tag_short. reflexivity. }
  pose proof (radvance_ok s (wkt_tag g) _ Hg Hr') as E2.
  assert (d = XY \/ d <> XY) as [Ed|Ed] by (destruct d; [left; reflexivity|right..]; discriminate).
  - rewrite Ed in *. cbn [dim_word] in *. cbn [app] in *.
    exists (past s (wkt_tag g ++ b0 ++ b) (u ++ r)).
    assert (skip_space (past s (wkt_tag g) (b0 ++ b ++ u ++ r)) = Ok (past s (wkt_tag g ++ b0 ++ b) (u ++ r))) as E3.
    { rewrite (skip_space_ok _ (b0 ++ b) (u ++ r) (past_good _ _ _)); [rewrite past_past; reflexivity|rewrite past_rest, <- app_assoc; reflexivity| |apply starts_solid; exact Hst].
      apply blank_app; auto. }
    destruct (starts_word u r Hst Hw) as (w & v & Hww & Ev & Hpw & Hwv).
    exists (past (rset_nvals s 2) (wkt_tag g ++ b0 ++ b) (u ++ r)), (firstn 3 w), O, [], (b0 ++ b).
    split; [exact E0|]. split; [exact E1|]. split; [exact E2|]. split; [exact E3|]. split.
    { change 3 with (Z.of_nat 3). apply (peek_word_max _ w v); [apply past_good|exact Ev|exact Hpw|exact Hwv]. }
    split; [destruct Hww as [-> | ->]; reflexivity|].
    split; [rewrite rset_past; rewrite (radvance_ok _ [] (u ++ r) (past_good _ _ _) (past_rest _ _ _) : radvance _ O = _), past_past, app_nil_r; reflexivity|].
    split; [reflexivity|]. split; [constructor|]. split; [reflexivity|]. split.
    + assert (moved s (wkt_tag g ++ b0 ++ b) (past s (wkt_tag g ++ b0 ++ b) (u ++ r))) as M by (apply moved_past; rewrite Hr', <- !app_assoc; reflexivity). exact M.
    + rewrite !app_nil_r. reflexivity.
  - exists (past s (wkt_tag g ++ b0) (dim_word d ++ b ++ u ++ r)).
    assert (dim_word d <> []) as Hdw by (destruct d; [congruence|discriminate..]).
    assert (firstn 3 (dim_word d) = dim_word d) as Hd3 by (destruct d; reflexivity).
    exists (past (rset_nvals s (N.of_nat (ndim d))) ((wkt_tag g ++ b0) ++ dim_word d) (b ++ u ++ r)), (dim_word d), (length (dim_word d)), b, (b0 ++ dim_word d).
    split; [exact E0|]. split; [exact E1|]. split; [exact E2|]. split.
    { rewrite (skip_space_ok _ b0 (dim_word d ++ b ++ u ++ r) (past_good _ _ _) (past_rest _ _ _) Hb0); [rewrite past_past; reflexivity|].
      apply plain_no_space; [apply dim_word_plain|exact Hdw]. }
    split.
    { change 3 with (Z.of_nat 3). rewrite <- Hd3 at 2. apply (peek_word_max _ _ (b ++ u ++ r)); [apply past_good|apply past_rest|apply dim_word_plain|exact Hwb]. }
    split; [apply dims_of_dim_word; exact Ed|].
    split; [rewrite rset_past, (radvance_ok _ (dim_word d) (b ++ u ++ r) (past_good _ _ _) (past_rest _ _ _)), past_past; reflexivity|].
    split; [reflexivity|]. split; [exact Hb|]. split; [reflexivity|]. split; [|rewrite <- !app_assoc; reflexivity].
    assert (moved s ((wkt_tag g ++ b0) ++ dim_word d) (past s ((wkt_tag g ++ b0) ++ dim_word d) (b ++ u ++ r))) as M by (apply moved_past; rewrite Hr', <- !app_assoc; reflexivity).
    rewrite <- app_assoc in M at 1. exact M.
Qed.

(** Equivalent forms of the members of the grammar. *)
Lemma points_member_iff lax d g t :
  match g with GPoint d' _ => d' = d /\ body_text parse lax g t | _ => False end <-> points_member parse d g t.
Proof.
  split.
  - destruct g as [d' cs| | |]; try contradiction. cbn [body_text]. intros (-> & H). exists cs. auto.
  - intros (cs & -> & H). cbn [body_text]. split; [reflexivity|exact H].
Qed.
Lemma lines_member_iff lax d g t :
  match g with GLine d' _ => d' = d /\ body_text parse lax g t | _ => False end <-> lines_member parse d g t.
Proof.
  split.
  - destruct g as [|d' cs| |]; try contradiction. cbn [body_text]. intros (-> & H). exists cs. auto.
  - intros (cs & -> & H). cbn [body_text]. split; [reflexivity|exact H].
Qed.
Lemma polys_member_iff lax d g t :
  match g with GPoly d' _ => d' = d /\ body_text parse lax g t | _ => False end <-> polys_member parse d g t.
Proof.
  split.
  - destruct g as [| |d' cs|]; try contradiction. cbn [body_text]. intros (-> & H). exists cs. auto.
  - intros (cs & -> & H). cbn [body_text]. split; [reflexivity|exact H].
Qed.
Lemma flat_member_iff d g t :
  match g with GPoint d' [c] => d' = d /\ coord_text parse d c t | _ => False end <-> flat_member parse d g t.
Proof.
  split.
  - destruct g as [d' [|c [|]]| | |]; try contradiction. intros (-> & H). exists c. auto.
  - intros (c & -> & H). split; [reflexivity|exact H].
Qed.

Definition tagged (g : geom) (t : bytes) : Prop := tagged_text g (body_text parse false g) t.
Lemma tagged_solid g t r : tagged g t -> no_space (t ++ r).
Proof. intros (dt & b & u & _ & _ & _ & _ & ->). rewrite <- app_assoc. apply tag_solid. Qed.

(** The body reader that the tag selects. *)
Definition body_reader (f : nat) (t d : N) (s : rst) : prog rst :=
  if (t =? 1)%N then read_point parse s
  else if (t =? 2)%N then read_coordinates parse s
  else if (t =? 3)%N then read_polygon parse s
  else if (t =? 4)%N then read_multipoint parse d s
  else if (t =? 5)%N then read_multilinestring parse d s
  else if (t =? 6)%N then read_multipolygon parse d s
  else empty_or (read_items (read_tagged parse f)) s.

Lemma body_reader_complete f g s b u r :
  item_complete tagged geom_ev (fun _ => True) f (read_tagged parse f) ->
  good s -> dims_are (geom_dim g) s -> (length (r_rest s) <= f)%nat -> blank b -> r_rest s = b ++ u ++ r -> body_text parse false g u -> word_end r ->
  exists e s', trace (body_reader f (geom_code g) (dimN (geom_dim g)) s) = (e, Ok s') /\
    geom_ev g ([EGeomStart (geom_code g) (dimN (geom_dim g))] ++ e ++ [EGeomEnd]) /\ moved s (b ++ u) s'.
Proof.
  intros IH Hg Hd Hf Hb Hr Hu Hw. unfold body_reader. destruct g as [d cs|d cs|d rings|[| | |] d parts]; cbn [geom_dim geom_code coll_code body_text] in *.
  - destruct Hu as [Hl Hu]. destruct (read_point_complete parse number d cs s b u r) as (e & s' & T & He & _ & M); try assumption.
    exists e, s'. split; [exact T|]. split; [apply point_geom_ev; exact He|exact M].
  - destruct (read_coordinates_complete parse number d cs s b u r) as (e & s' & T & He & _ & M); try assumption.
    exists e, s'. split; [exact T|]. split; [apply line_geom_ev; exact He|exact M].
  - destruct (read_polygon_complete parse number d rings s b u r) as (e & s' & T & He & _ & M); try assumption.
    exists e, s'. split; [exact T|]. split; [apply poly_geom_ev; exact He|exact M].
  - assert (exists e s', trace (read_multipoint parse (dimN d) s) = (e, Ok s') /\ parts_ev parts e /\ dims_are d s' /\ moved s (b ++ u) s') as (e & s' & T & He & _ & M).
    { destruct Hu as [Hu|(b' & v & [->|[Hx _]] & Hv & ->)]; [| |discriminate Hx].
      - apply (multi_points_complete d parts s b u r); try assumption. eapply empty_or_text_ext; [|exact Hu]. intros. apply (points_member_iff false). assumption.
      - apply (multi_flat_complete d parts s b _ r); try assumption. exists v. split; [|reflexivity]. eapply list_text_ext; [|exact Hv]. intros. apply flat_member_iff. assumption. }
    exists e, s'. split; [exact T|]. split; [apply (coll_geom_ev CMultipoint); exact He|exact M].
  - destruct (multi_lines_complete parse number d parts s b u r) as (e & s' & T & He & _ & M); try assumption.
    { eapply empty_or_text_ext; [|exact Hu]. intros. apply (lines_member_iff false). assumption. }
    exists e, s'. split; [exact T|]. split; [apply (coll_geom_ev CMultilinestring); exact He|exact M].
  - destruct (multi_polys_complete parse number d parts s b u r) as (e & s' & T & He & _ & M); try assumption.
    { eapply empty_or_text_ext; [|exact Hu]. intros. apply (polys_member_iff false). assumption. }
    exists e, s'. split; [exact T|]. split; [apply (coll_geom_ev CMultipolygon); exact He|exact M].
  - destruct (body_complete tagged geom_ev parts_ev (fun _ => True) f (read_tagged parse f)) with (xs := parts) (s := s) (b := b) (t := u) (r := r)
      as (e & s' & T & He & _ & M); try assumption; auto.
    + apply parts_ev_nil.
    + apply parts_ev_snoc.
    + apply tagged_solid.
    + exists e, s'. split; [exact T|]. split; [apply (coll_geom_ev CCollection); exact He|exact M].
Qed.

Lemma read_tagged_unfold f s : read_tagged parse (S f) s =
  let! s := Ret (skip_space s) in
  let! word := Ret (peek_word s 19) in
  match type_of_word word with
  | None => Ret (Err EINVAL)
  | Some t =>
      let! s := Ret (radvance s (length word)) in
      let! s := Ret (skip_space s) in
      let! word := Ret (peek_word s 3) in
      let '(d, n_values, k) := dims_of_word word in
      let! s := Ret (radvance (rset_nvals s n_values) k) in
      run! emit (EGeomStart t d) in
      let! s := body_reader f t d s in
      run! emit EGeomEnd in
      Ret (Ok s)
  end.
Proof. reflexivity. Qed.

Lemma read_tagged_complete f : item_complete tagged geom_ev (fun _ => True) f (read_tagged parse f).
Proof.
  induction f as [|f IH]; intros g s t r Hg _ Hf Hr Ht Hw; [lia|]. destruct Ht as (dt & b & u & Hdt & Hb & Hu & He & ->).
  destruct (head_complete g s dt b u r) as (s1 & s2 & s3 & w & k & b' & x & E0 & E1 & E2 & E3 & E4 & E5 & E6 & Hd & Hb' & R3 & M & Ex); try assumption.
  { eapply body_starts; exact Hu. }
  rewrite read_tagged_unfold, E0, trace_ret_bind, E1, trace_ret_bind, type_of_tag, E2, trace_ret_bind, E3, trace_ret_bind, E4, trace_ret_bind, E5, E6, trace_ret_bind.
  destruct (body_reader_complete f g s3 b' u r) as (e & s4 & T & Hev & M4); try assumption.
  { eapply moved_good; exact M. }
  { pose proof (moved_length _ _ _ M) as L. rewrite app_length in L. pose proof (tag_long g). lia. }
  exists ([EGeomStart (geom_code g) (dimN (geom_dim g))] ++ e ++ [EGeomEnd]), s4. split; [|split; [exact Hev|split; [exact I|]]].
  - apply trace_emit_bind. eapply trace_bind_ok; [exact T|]. apply trace_emit_bind. reflexivity.
  - eapply moved_trans in M4; [|exact M]. rewrite <- app_assoc, (app_assoc x), <- Ex, <- !app_assoc in M4. exact M4.
Qed.

Lemma read_tagged_skip f s b r : good s -> blank b -> no_space r -> r_rest s = b ++ r -> read_tagged parse (S f) s = read_tagged parse (S f) (past s b r).
Proof.
  intros Hg Hb Hn Hr. rewrite !read_tagged_unfold. rewrite (skip_space_ok s b r Hg Hr Hb Hn).
  rewrite (skip_space_ok (past s b r) [] r (past_good _ _ _) eq_refl ltac:(constructor) Hn), past_past, app_nil_r. reflexivity.
Qed.

(** Every text of the grammar is read. *)
Theorem wkt_visit_complete g t s0 : wkt_text parse false g t ->
  exists evs, trace (wkt_visit parse s0 t) = ([EFeatStart] ++ evs ++ [EFeatEnd], Ok tt) /\ geom_events g evs /\ batches_of_64 evs.
Proof.
  intros (b1 & u & b2 & Hb1 & Hu & Hb2 & ->). unfold wkt_visit. set (t := b1 ++ u ++ b2). set (s := rmove s0 [] t (Z.of_nat (length t))).
  assert (good s) as Hg by reflexivity.
  assert (no_space (u ++ b2)) as Hn by (apply tagged_solid with (g := g); exact Hu).
  destruct (read_tagged_complete (S (length t)) g (past s b1 (u ++ b2)) u b2) as (e & s1 & T & [He Hb] & _ & M).
  - apply past_good.
  - exact I.
  - rewrite past_rest. unfold t. rewrite !app_length. lia.
  - reflexivity.
  - exact Hu.
  - destruct b2 as [|c b2]; [exact I|]. inversion Hb2 as [|? ? Hc]; subst. cbn. apply space_ends, is_space_blank, Hc.
  - exists e. split; [|split; assumption]. apply trace_emit_bind. eapply trace_bind_ok.
    + rewrite (read_tagged_skip _ s b1 (u ++ b2) Hg Hb1 Hn eq_refl). exact T.
    + apply trace_emit_bind. pose proof (moved_rest _ _ _ _ M (past_rest _ _ _)) as R1.
      rewrite (skip_space_ok s1 b2 [] (moved_good _ _ _ M)); [|rewrite app_nil_r; exact R1|exact Hb2|exact I]. rewrite trace_ret_bind. reflexivity.
Qed.

(** ** Soundness *)
Lemma body_reader_sound f t d s :
  item_sound tagged geom_ev (fun _ => True) f (read_tagged parse f) ->
  good s -> dims_are d s -> (length (r_rest s) <= f)%nat -> (1 <= t <= 7)%N ->
  post (body_reader f t (dimN d) s) (fun e s' => exists g b u, blank b /\ geom_code g = t /\ geom_dim g = d /\ body_text parse false g u /\
    geom_ev g ([EGeomStart t (dimN d)] ++ e ++ [EGeomEnd]) /\ moved s (b ++ u) s').
Proof.
  intros IH Hg Hd Hf Ht. unfold body_reader.
  destruct (N.eqb_spec t 1) as [->|N1].
  { eapply post_weaken; [apply (read_point_sound parse d); assumption|]. intros e s' (cs & b & u & Hb & Hl & Hu & He & _ & M).
    exists (GPoint d cs), b, u. do 3 (split; [assumption || reflexivity|]). split; [split; assumption|]. split; [apply point_geom_ev; exact He|exact M]. }
  destruct (N.eqb_spec t 2) as [->|N2].
  { eapply post_weaken; [apply (read_coordinates_sound parse d); assumption|]. intros e s' (cs & b & u & Hb & Hu & He & _ & M).
    exists (GLine d cs), b, u. do 3 (split; [assumption || reflexivity|]). split; [exact Hu|]. split; [apply line_geom_ev; exact He|exact M]. }
  destruct (N.eqb_spec t 3) as [->|N3].
  { eapply post_weaken; [apply (read_polygon_sound parse d); assumption|]. intros e s' (cs & b & u & Hb & Hu & He & _ & M).
    exists (GPoly d cs), b, u. do 3 (split; [assumption || reflexivity|]). split; [exact Hu|]. split; [apply poly_geom_ev; exact He|exact M]. }
  destruct (N.eqb_spec t 4) as [->|N4].
  { eapply post_weaken; [apply (multi_points_sound d); assumption|]. intros e s' (parts & b & u & Hb & Hu & He & _ & M).
    exists (GColl CMultipoint d parts), b, u. do 3 (split; [assumption || reflexivity|]). split; [|split; [apply (coll_geom_ev CMultipoint); exact He|exact M]].
    cbn [body_text]. destruct Hu as [Hu|(v & Hv & ->)]; [left|right].
    - eapply empty_or_text_ext; [|exact Hu]. intros. apply (points_member_iff false). assumption.
    - exists [], v. split; [auto|]. split; [|reflexivity]. eapply list_text_ext; [|exact Hv]. intros. apply flat_member_iff. assumption. }
  destruct (N.eqb_spec t 5) as [->|N5].
  { eapply post_weaken; [apply (multi_lines_sound parse d); assumption|]. intros e s' (parts & b & u & Hb & Hu & He & _ & M).
    exists (GColl CMultilinestring d parts), b, u. do 3 (split; [assumption || reflexivity|]). split; [|split; [apply (coll_geom_ev CMultilinestring); exact He|exact M]].
    cbn [body_text]. eapply empty_or_text_ext; [|exact Hu]. intros. apply (lines_member_iff false). assumption. }
  destruct (N.eqb_spec t 6) as [->|N6].
  { eapply post_weaken; [apply (multi_polys_sound parse d); assumption|]. intros e s' (parts & b & u & Hb & Hu & He & _ & M).
    exists (GColl CMultipolygon d parts), b, u. do 3 (split; [assumption || reflexivity|]). split; [|split; [apply (coll_geom_ev CMultipolygon); exact He|exact M]].
    cbn [body_text]. eapply empty_or_text_ext; [|exact Hu]. intros. apply (polys_member_iff false). assumption. }
  assert (t = 7%N) as -> by lia.
  eapply post_weaken; [apply (body_sound tagged geom_ev parts_ev (fun _ => True) f (read_tagged parse f)); try assumption; auto|].
  - apply parts_ev_nil.
  - apply parts_ev_snoc.
  - intros e s' (parts & b & u & Hb & Hu & He & _ & M).
    exists (GColl CCollection d parts), b, u. do 3 (split; [assumption || reflexivity|]). split; [exact Hu|split; [apply (coll_geom_ev CCollection); exact He|exact M]].
Qed.

Lemma type_tag_code g t : geom_code g = t -> type_tag t = wkt_tag g.
Proof. intros <-. symmetry. apply wkt_tag_code. Qed.

Lemma read_tagged_sound f : forall s, good s -> (length (r_rest s) < f)%nat ->
  post (read_tagged parse f s) (fun e s' => exists g b t, blank b /\ tagged g t /\ geom_ev g e /\ moved s (b ++ t) s').
Proof.
  induction f as [|f IH]; intros s Hg Hf; [lia|].
  assert (item_sound tagged geom_ev (fun _ => True) f (read_tagged parse f)) as IH'.
  { intros s0 Hg0 Hn0 _ Hf0. eapply post_weaken; [apply IH; assumption|]. intros e s' (g & b & t & Hb & Ht & He & M).
    rewrite (moved_solid _ _ _ _ Hn0 Hb M) in M. exists g, t. auto. }
  rewrite read_tagged_unfold. destruct (skip_space_any s Hg) as (b0 & r0 & E0 & Hb0 & Hn0 & ->). rewrite trace_ret_bind.
  destruct (peek_word_any (past s b0 r0) 19 (past_good _ _ _)) as (tg & r1 & E1 & Htg & Hw1 & P1). change 19 with (Z.of_nat 19). rewrite P1, trace_ret_bind. rewrite past_rest in E1.
  destruct (type_of_word (firstn 19 tg)) as [ty|] eqn:Ety; [|apply post_err]. apply type_of_word_some in Ety as [Etg Hty].
  assert (tg = type_tag ty) as ->.
  { apply (firstn_short 19); [exact Etg|]. assert (length (type_tag ty) <= 18)%nat; [|lia].
    assert (In ty [1;2;3;4;5;6;7]%N) as Hin by (cbn; lia). cbn in Hin. repeat (destruct Hin as [<-|Hin]; [vm_compute; lia|]). contradiction. }
  rewrite Etg. rewrite (radvance_ok _ (type_tag ty) r1 (past_good _ _ _)) by (rewrite past_rest; exact E1). rewrite trace_ret_bind, past_past.
  destruct (skip_space_any (past s (b0 ++ type_tag ty) r1) (past_good _ _ _)) as (b1 & r2 & E2 & Hb1 & Hn2 & ->). rewrite past_rest in E2. rewrite trace_ret_bind, past_past.
  destruct (peek_word_any (past s ((b0 ++ type_tag ty) ++ b1) r2) 3 (past_good _ _ _)) as (w & r3 & E3 & Hpw & Hw3 & P3). rewrite past_rest in E3.
  change 3 with (Z.of_nat 3). rewrite P3, trace_ret_bind.
  assert (forall g, geom_code g = ty -> type_tag ty = wkt_tag g) as Htag by (intros g <-; symmetry; apply wkt_tag_code).
  assert (length (type_tag ty) >= 5)%nat as Hlong.
  { assert (In ty [1;2;3;4;5;6;7]%N) as Hin by (cbn; lia). cbn in Hin. repeat (destruct Hin as [<-|Hin]; [vm_compute; lia|]). contradiction. }
  destruct (dims_of_word_cases (firstn 3 w)) as [(d & Hd & Ew)|Edw].
  - assert (w = dim_word d) as -> by (apply (firstn_short 3); [exact Ew|destruct d; vm_compute; lia]). rewrite Ew, (dims_of_dim_word d Hd), rset_past.
    rewrite (radvance_ok _ (dim_word d) r3 (past_good _ _ _)) by (rewrite past_rest; exact E3). rewrite trace_ret_bind, past_past.
    set (s3 := past (rset_nvals s _) _ _).
    assert (moved s (((b0 ++ type_tag ty) ++ b1) ++ dim_word d) s3) as M.
    { assert (r_rest s = (((b0 ++ type_tag ty) ++ b1) ++ dim_word d) ++ r3) as E by (rewrite E0, E1, E2, E3, <- !app_assoc; reflexivity).
      split; [exact E|]. split; reflexivity. }
    apply post_emit. apply post_bind. eapply post_weaken; [apply (body_reader_sound f ty d s3 IH'); [apply past_good|reflexivity| |exact Hty]|].
    { pose proof (moved_length _ _ _ M) as L. rewrite !app_length in L. lia. }
    intros e s4 (g & b & u & Hb & Hgc & Hgd & Hu & He & M4). apply post_emit, post_ret.
    assert (dim_word d <> []) as Hdw by (destruct d; [congruence|discriminate..]).
    assert (b1 <> []) as Hne1.
    { intros ->. cbn [app] in E2. subst r1. rewrite E3 in Hw1. apply (plain_not_end (dim_word d) r3); [apply dim_word_plain|exact Hdw|exact Hw1]. }
    exists g, b0, (wkt_tag g ++ (b1 ++ dim_word d) ++ b ++ u). split; [exact Hb0|]. split; [|split; [exact He|]].
    + exists (b1 ++ dim_word d), b, u. split; [|split; [exact Hb|split; [exact Hu|split; [|reflexivity]]]].
      * rewrite Hgd. destruct d; [congruence|exists b1; auto..].
      * intros -> ->. cbn [app] in M4. destruct M4 as (R4 & _). assert (r3 = $"EMPTY" ++ r_rest s4) as -> by exact R4.
        apply (plain_not_end $"EMPTY" (r_rest s4)); [apply plain_empty|discriminate|exact Hw3].
    + eapply moved_trans in M4; [|exact M]. rewrite <- (Htag g Hgc). rewrite <- !app_assoc in M4. rewrite <- !app_assoc. exact M4.
  - rewrite Edw, rset_past. rewrite (radvance_ok _ [] r2 (past_good _ _ _) (past_rest _ _ _) : radvance _ O = _), trace_ret_bind, past_past, app_nil_r.
    set (s3 := past (rset_nvals s _) _ _).
    assert (moved s ((b0 ++ type_tag ty) ++ b1) s3) as M.
    { assert (r_rest s = ((b0 ++ type_tag ty) ++ b1) ++ r2) as E by (rewrite E0, E1, E2, <- !app_assoc; reflexivity).
      split; [exact E|]. split; reflexivity. }
    apply post_emit. apply post_bind. eapply post_weaken; [apply (body_reader_sound f ty XY s3 IH'); [apply past_good|reflexivity| |exact Hty]|].
    { pose proof (moved_length _ _ _ M) as L. rewrite !app_length in L. lia. }
    intros e s4 (g & b & u & Hb & Hgc & Hgd & Hu & He & M4). apply post_emit, post_ret.
    exists g, b0, (wkt_tag g ++ [] ++ (b1 ++ b) ++ u). split; [exact Hb0|]. split; [|split; [exact He|]].
    + exists [], (b1 ++ b), u. split; [rewrite Hgd; reflexivity|]. split; [apply blank_app; auto|]. split; [exact Hu|]. split; [|reflexivity].
      intros -> E. apply app_eq_nil in E as [-> ->]. cbn [app] in M4, E2. subst r1. destruct M4 as (R4 & _). assert (r2 = $"EMPTY" ++ r_rest s4) as -> by exact R4.
      apply (plain_not_end $"EMPTY" (r_rest s4)); [apply plain_empty|discriminate|exact Hw1].
    + eapply moved_trans in M4; [|exact M]. rewrite <- (Htag g Hgc). rewrite <- !app_assoc in M4. cbn [app]. rewrite <- !app_assoc. exact M4.
Qed.
End Parser.

(** Reading never goes wrong, and accepts only texts of the grammar (up to a NUL). *)
Theorem wkt_visit_sound parse s0 src :
  post (wkt_visit parse s0 src) (fun e _ => exists g t rest evs, src = t ++ rest /\ wkt_text parse false g t /\ (rest = [] \/ exists r, rest = 0%N :: r) /\
    e = [EFeatStart] ++ evs ++ [EFeatEnd] /\ geom_events g evs /\ batches_of_64 evs).
Proof.
  unfold wkt_visit. set (s := rmove s0 [] src (Z.of_nat (length src))). assert (good s) as Hg by reflexivity.
  apply post_emit. apply post_bind. eapply post_weaken; [apply (read_tagged_sound parse); [exact Hg|cbn; lia]|].
  intros e s1 (g & b & t & Hb & Ht & [He Hbt] & M). apply post_emit. pose proof (moved_good _ _ _ M) as G1.
  destruct (skip_space_any s1 G1) as (b2 & r & E2 & Hb2 & Hn & ->). rewrite trace_ret_bind, (peek_ok _ (past_good _ _ _)), past_rest, trace_ret_bind.
  destruct (N.eqb_spec (hd 0%N r) 0) as [Eh|_]; [|apply post_err]. apply post_ret. rewrite <- ?app_assoc.
  exists g, (b ++ t ++ b2), r, e. split; [|split; [|split; [|split; [|split; assumption]]]].
  - destruct M as (R1 & _). cbn in R1. rewrite R1, E2, <- !app_assoc. reflexivity.
  - exists b, t, b2. auto.
  - destruct r as [|c r]; [left; reflexivity|]. cbn in Eh. subst c. right. exists r. reflexivity.
  - reflexivity.
Qed.

Lemma wkt_visit_ends parse s0 src :
  snd (trace (wkt_visit parse s0 src)) = Ok tt \/ snd (trace (wkt_visit parse s0 src)) = Err EINVAL.
Proof.
  pose proof (wkt_visit_sound parse s0 src) as H. unfold post in H. destruct (trace (wkt_visit parse s0 src)) as [e [[]|c| |]]; cbn [snd]; try contradiction; [auto|].
  right. congruence.
Qed.
Lemma wkt_visit_only parse s0 src evs : trace (wkt_visit parse s0 src) = (evs, Ok tt) ->
  exists g t rest evs', src = t ++ rest /\ wkt_text parse false g t /\ (rest = [] \/ exists r, rest = 0%N :: r) /\
    evs = [EFeatStart] ++ evs' ++ [EFeatEnd] /\ geom_events g evs' /\ batches_of_64 evs'.
Proof. intros T. pose proof (wkt_visit_sound parse s0 src) as H. unfold post in H. rewrite T in H. exact H. Qed.
Lemma wkt_visit_whole parse s0 src evs : ~ In 0%N src -> trace (wkt_visit parse s0 src) = (evs, Ok tt) -> exists g, wkt_text parse false g src.
Proof.
  intros Hn T. destruct (wkt_visit_only parse s0 src evs T) as (g & t & rest & evs' & -> & Ht & [->|[r ->]] & _).
  - exists g. rewrite app_nil_r. exact Ht.
  - exfalso. apply Hn, in_or_app. right. left. reflexivity.
Qed.
