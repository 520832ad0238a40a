(** * The messages of exceptions *)
From Verif Require Import Base BaseFacts Text TypesModel TypesSpec GeomSpec ArrowModel BufferModel ArrayViewModel NativeSpec NativeVisitProofs SerialSpec CppCoordModel CppWkbModel CppWkbSpec CppWkbTells
  CppWkbPrefix CppWkbVisit CppWkbWitness CppArrayModel CppArraySpec CppWkbArrayProofs WktErrorModel WktErrorSpec WktErrorMessages MetadataErrorProofs CppErrorModel CppErrorSpec CppErrorWhere.
Local Open Scope Z_scope.

Lemma to_string_ok z : exists n, decimal_of (Z.abs_N z) n /\ to_string z = (if z <? 0 then $"-" else []) ++ n.
Proof.
  unfold to_string. destruct (Z.ltb_spec z 0).
  - exists (print_ld (Z.to_N (- z))). split; [|reflexivity]. replace (Z.abs_N z) with (Z.to_N (- z)) by lia. apply print_ld_ok.
  - exists (print_ld (Z.to_N z)). split; [|reflexivity]. replace (Z.abs_N z) with (Z.to_N z) by lia. apply print_ld_ok.
Qed.
Lemma index_ok j : exists n, decimal_of (N.of_nat j) n /\ to_string (Z.of_nat j) = n.
Proof.
  destruct (to_string_ok (Z.of_nat j)) as (n & Hn & E). exists n. destruct (Z.ltb_spec (Z.of_nat j) 0); [lia|].
  replace (Z.abs_N (Z.of_nat j)) with (N.of_nat j) in Hn by lia. split; [exact Hn | exact E].
Qed.

Lemma c_text_ok text r : ~ In 0%N text -> c_text (text ++ [0%N] ++ r) = Some text.
Proof.
  induction text as [|c text IH]; intros H; [reflexivity|]. cbn [app c_text]. destruct (N.eqb_spec c 0) as [->|_]; [destruct H; left; reflexivity|].
  cbn [app] in IH. rewrite IH; [reflexivity|]. intros Hi. apply H. right. exact Hi.
Qed.

Lemma thrown error call code shown :
  match error with None => shown = [] | Some memory => exists text, is_c_string memory text /\ shown = $": " ++ [10%N] ++ text end ->
  match throw_not_ok error call code with
  | Ok None => code = 0
  | Ok (Some (c, what)) => code <> 0 /\ c = code /\
      exists n, decimal_of (Z.abs_N code) n /\ what = call ++ $" failed with errno " ++ (if code <? 0 then $"-" else []) ++ n ++ shown
  | _ => False
  end.
Proof.
  intros H. unfold throw_not_ok. destruct (Z.eqb_spec code 0) as [E|E]; [exact E|]. cbv zeta. destruct (to_string_ok code) as (n & Hn & ->).
  destruct error as [memory|].
  - destruct H as (text & (Hz & r & ->) & ->). rewrite (c_text_ok text r Hz). cbn [or_ub obind]. split; [exact E|]. split; [reflexivity|]. exists n. split; [exact Hn|].
    rewrite <- !app_assoc. reflexivity.
  - subst shown. split; [exact E|]. split; [reflexivity|]. exists n. split; [exact Hn|]. rewrite app_nil_r. reflexivity.
Qed.

(** ** One element *)
Lemma defect_told b p g : wf_bytes b -> (~ exists t, tree_ok t /\ tree_bytes t = b) ->
  exists st cur p' g', parse b p g = Ok (st, cur, p', g') /\ st <> OK /\ wkb_defect b (error_to_string st).
Proof.
  intros Hwf Hb. destruct (parse_any b p g Hwf) as (st & cur & p' & g' & E & _ & H). exists st, cur, p', g'. split; [exact E|].
  destruct cur as [c|].
  - destruct H as (t & rest & Tok & -> & _ & -> & _). destruct rest as [|x rest].
    + destruct Hb. exists t. rewrite app_nil_r. auto.
    + split; [discriminate|]. apply (too_many _ t (x :: rest)); [exact Tok | discriminate | reflexivity].
  - destruct H as [->|[->| ->]]; (split; [discriminate|]).
    + destruct (parse_where b p g TOO_FEW_BYTES None p' g' Hwf E ltac:(auto)) as (q & r & Hq & Eb & Hr). apply (too_few b q r); [|exact Hq|exact Eb|exact Hr].
      clear q r Hq Eb Hr. intros t rest Tok ->. destruct rest as [|x rest].
      * apply Hb. exists t. rewrite app_nil_r. auto.
      * destruct (parse_extra t (x :: rest) p g Tok ltac:(discriminate)) as (s1 & o1 & E1 & _). rewrite E1 in E. discriminate E.
    + destruct (parse_where b p g INVALID_ENDIAN None p' g' Hwf E ltac:(auto)) as (q & x & rest & Hq & Eb & Hx). exact (no_byte_order b q x rest Hq Eb Hx).
    + destruct (parse_where b p g INVALID_GEOMETRY_TYPE None p' g' Hwf E ltac:(auto)) as (q & e & w & rest & Hq & Eb & Hw & Ht).
      exact (no_geometry_type b q e w rest Hq Eb Hw Ht).
Qed.

(** ** One pass *)
Section Pass.
Variable A : Type.
Variable body : bytes -> wgeom -> outcome (list A).
Variable h : tree -> list A.
Hypothesis body_ok : forall t g, tree_ok t -> tells (tree_bytes t) g t -> body (tree_bytes t) g = Ok (h t).
Variable s : wkbseq.
Variable valid : Z -> outcome bool.
Let all (ts : list (option tree)) := flat_map (fun t => match t with Some t => h t | None => [] end) ts.

Lemma collect_told_bad : forall ts els b rest, Forall2 denotes_tree els ts -> (~ exists t, tree_ok t /\ tree_bytes t = b) ->
  forall i0 p g, reads_as s valid (els ++ Some b :: rest) i0 ->
  exists reason, wkb_defect b reason /\ wkb_collect_told (length (els ++ Some b :: rest)) i0 s valid body p g =
    Ok (all ts, Some ($"Failed to parse WKB at index " ++ to_string (i0 + Z.of_nat (length els)) ++ $" with error " ++ reason)).
Proof.
  induction ts as [|t ts IH]; intros els b rest H Hb i0 p g R; inversion H; subst; clear H.
  - pose proof (R 0%nat _ eq_refl) as R0. change (Z.of_nat 0) with 0 in R0. rewrite Z.add_0_r in R0. destruct R0 as (E1 & E2 & Hwf & Hsz).
    cbn [app length wkb_collect_told]. rewrite E1, E2. cbn [obind]. rewrite view_small by exact Hsz.
    destruct (defect_told b p g Hwf Hb) as (st & cur & p' & g' & -> & Hst & Hd). cbn [obind]. exists (error_to_string st). split; [exact Hd|].
    cbn [Z.of_nat]. rewrite Z.add_0_r. destruct st; [congruence | reflexivity..].
  - rename x into e, l into els'. pose proof (R 0%nat e eq_refl) as R0. change (Z.of_nat 0) with 0 in R0. rewrite Z.add_0_r in R0.
    cbn [app] in R. pose proof (reads_tail s valid _ _ _ R) as Rt.
    replace (i0 + Z.of_nat (length (e :: els'))) with (i0 + 1 + Z.of_nat (length els')) by (cbn [length]; lia).
    cbn [app length wkb_collect_told all flat_map]. fold (all ts). destruct e as [x|], t as [t|]; try contradiction; cbn [denotes_tree] in *.
    + destruct R0 as (-> & -> & Hwf & Hsz). cbn [obind]. rewrite view_small by exact Hsz.
      match goal with H : tree_ok t /\ _ |- _ => destruct H as (Tok & Tb) end. subst x.
      destruct (parse_exact t p g Tok) as (p' & g' & -> & Tl). cbn [obind]. rewrite (body_ok t g' Tok Tl). cbn [obind].
      destruct (IH els' b rest ltac:(assumption) Hb (i0 + 1) p' g' Rt) as (reason & Hd & ->). exists reason. split; [exact Hd | reflexivity].
    + rewrite R0. cbn [obind]. exact (IH els' b rest ltac:(assumption) Hb (i0 + 1) p g Rt).
Qed.

Lemma collect_told_good : forall ts els, Forall2 denotes_tree els ts -> forall i0 p g, reads_as s valid els i0 ->
  wkb_collect_told (length els) i0 s valid body p g = Ok (all ts, None).
Proof.
  induction ts as [|t ts IH]; intros els H i0 p g R; inversion H; subst; clear H; [reflexivity|].
  rename x into e, l into els'. pose proof (R 0%nat e eq_refl) as R0. change (Z.of_nat 0) with 0 in R0. rewrite Z.add_0_r in R0.
  pose proof (reads_tail s valid _ _ _ R) as Rt.
  cbn [length wkb_collect_told all flat_map]. fold (all ts). destruct e as [x|], t as [t|]; try contradiction; cbn [denotes_tree] in *.
  - destruct R0 as (-> & -> & Hwf & Hsz). cbn [obind]. rewrite view_small by exact Hsz.
    match goal with H : tree_ok t /\ _ |- _ => destruct H as (Tok & Tb) end. subst x.
    destruct (parse_exact t p g Tok) as (p' & g' & -> & Tl). cbn [obind]. rewrite (body_ok t g' Tok Tl). cbn [obind].
    rewrite (IH els' ltac:(assumption) (i0 + 1) p' g' Rt). reflexivity.
  - rewrite R0. cbn [obind]. exact (IH els' ltac:(assumption) (i0 + 1) p g Rt).
Qed.
End Pass.

(** ** Arrays *)
Lemma vertices_all dst ts : flat_map (fun t => match t with Some t => map (as_dims dst) (tree_vertices t) | None => [] end) ts = map (as_dims dst) (trees_vertices ts).
Proof. unfold trees_vertices. rewrite CppWkbVisit.map_flat_map. apply flat_map_ext. intros [t|]; reflexivity. Qed.
Lemma edges_all dst ts : flat_map (fun t => match t with Some t => map (both (as_dims dst)) (tree_edges t) | None => [] end) ts = map (both (as_dims dst)) (trees_edges ts).
Proof. unfold trees_edges. rewrite CppWkbVisit.map_flat_map. apply flat_map_ext. intros [t|]; reflexivity. Qed.

Lemma wkb_bad_told v a els ts o n b rest good : av_type v = TYPE_WKB -> serial_ok Offsets32 a -> serial_contents Offsets32 a els ->
  (forall b, In (Some b) els -> wf_bytes b) -> (o + n <= length els)%nat ->
  window els o n = good ++ Some b :: rest -> Forall2 denotes_tree good ts -> (~ exists t, tree_ok t /\ tree_bytes t = b) ->
  exists v', set_array v a = Ok v' /\
    let w := wkb_array_slice (wkb_array_init v') (Z.of_nat o) (Z.of_nat n) in
    forall dst, exists index reason, decimal_of (N.of_nat (length good)) index /\ wkb_defect b reason /\
      wkb_vertices_told dst w = Ok (map (as_dims dst) (trees_vertices ts), Some ($"Failed to parse WKB at index " ++ index ++ $" with error " ++ reason)).
Proof.
  intros Hv Hok Hc Hwf Hon Hwin HF Hbad.
  destruct (array_reads v a els o n Hv Hok Hc Hwf Hon) as (v' & E & HB & R). exists v'. split; [exact E|].
  set (w := wkb_array_slice _ _ _) in *. cbv zeta. intros dst. rewrite Hwin in HB, R. destruct (index_ok (length good)) as (index & Hi & Ei).
  unfold wkb_vertices_told, wkb_visit_told. rewrite HB. destruct (Z.ltb_spec (Z.of_nat (length (good ++ Some b :: rest))) 0); [lia|]. rewrite Nat2Z.id.
  destruct (collect_told_bad _ (fun b g => geometry_vertices b dst g) (fun t => map (as_dims dst) (tree_vertices t)) (fun t g => geometry_vertices_ok _ dst t g)
    _ _ ts good b rest HF Hbad 0 fresh_parser fresh_geometry R) as (reason & Hd & Er).
  exists index, reason. split; [exact Hi|]. split; [exact Hd|]. rewrite Er, Z.add_0_l, Ei, vertices_all. reflexivity.
Qed.
Lemma wkb_bad_edges_told v a els ts o n b rest good : av_type v = TYPE_WKB -> serial_ok Offsets32 a -> serial_contents Offsets32 a els ->
  (forall b, In (Some b) els -> wf_bytes b) -> (o + n <= length els)%nat ->
  window els o n = good ++ Some b :: rest -> Forall2 denotes_tree good ts -> (~ exists t, tree_ok t /\ tree_bytes t = b) ->
  exists v', set_array v a = Ok v' /\
    let w := wkb_array_slice (wkb_array_init v') (Z.of_nat o) (Z.of_nat n) in
    forall dst, exists index reason, decimal_of (N.of_nat (length good)) index /\ wkb_defect b reason /\
      wkb_edges_told dst w = Ok (map (both (as_dims dst)) (trees_edges ts), Some ($"Failed to parse WKB at index " ++ index ++ $" with error " ++ reason)).
Proof.
  intros Hv Hok Hc Hwf Hon Hwin HF Hbad.
  destruct (array_reads v a els o n Hv Hok Hc Hwf Hon) as (v' & E & HB & R). exists v'. split; [exact E|].
  set (w := wkb_array_slice _ _ _) in *. cbv zeta. intros dst. rewrite Hwin in HB, R. destruct (index_ok (length good)) as (index & Hi & Ei).
  unfold wkb_edges_told, wkb_visit_told. rewrite HB. destruct (Z.ltb_spec (Z.of_nat (length (good ++ Some b :: rest))) 0); [lia|]. rewrite Nat2Z.id.
  destruct (collect_told_bad _ (fun b g => geometry_edges b dst g) (fun t => map (both (as_dims dst)) (tree_edges t)) (fun t g => geometry_edges_ok _ dst t g)
    _ _ ts good b rest HF Hbad 0 fresh_parser fresh_geometry R) as (reason & Hd & Er).
  exists index, reason. split; [exact Hi|]. split; [exact Hd|]. rewrite Er, Z.add_0_l, Ei, edges_all. reflexivity.
Qed.

Lemma wkb_good_told v a els ts o n : av_type v = TYPE_WKB -> serial_ok Offsets32 a -> serial_contents Offsets32 a els ->
  (forall b, In (Some b) els -> wf_bytes b) -> (o + n <= length els)%nat -> Forall2 denotes_tree (window els o n) ts ->
  exists v', set_array v a = Ok v' /\
    let w := wkb_array_slice (wkb_array_init v') (Z.of_nat o) (Z.of_nat n) in
    forall dst, wkb_vertices_told dst w = Ok (map (as_dims dst) (trees_vertices ts), None) /\
      wkb_edges_told dst w = Ok (map (both (as_dims dst)) (trees_edges ts), None).
Proof.
  intros Hv Hok Hc Hwf Hon HF.
  destruct (array_reads v a els o n Hv Hok Hc Hwf Hon) as (v' & E & HB & R). exists v'. split; [exact E|].
  set (w := wkb_array_slice _ _ _) in *. cbv zeta. intros dst.
  unfold wkb_vertices_told, wkb_edges_told, wkb_visit_told. rewrite HB. destruct (Z.ltb_spec (Z.of_nat (length (window els o n))) 0); [lia|]. rewrite Nat2Z.id.
  rewrite (collect_told_good _ (fun b g => geometry_vertices b dst g) (fun t => map (as_dims dst) (tree_vertices t)) (fun t g => geometry_vertices_ok _ dst t g) _ _ ts _ HF 0 _ _ R).
  rewrite (collect_told_good _ (fun b g => geometry_edges b dst g) (fun t => map (both (as_dims dst)) (tree_edges t)) (fun t g => geometry_edges_ok _ dst t g) _ _ ts _ HF 0 _ _ R).
  rewrite vertices_all, edges_all. split; reflexivity.
Qed.

(** ** What GeoArrowErrorSet leaves *)
Lemma thrown_text text call code : ~ In 0%N text -> code <> 0 ->
  exists n, decimal_of (Z.abs_N code) n /\
    throw_not_ok (Some (snd (error_set text))) call code =
      Ok (Some (code, call ++ $" failed with errno " ++ (if code <? 0 then $"-" else []) ++ n ++ $": " ++ [10%N] ++ firstn 1023 text)).
Proof.
  intros Ht Hc. pose proof (thrown (Some (snd (error_set text))) call code _ (ex_intro _ (firstn 1023 text) (conj (error_set_string text Ht) eq_refl))) as H.
  destruct (throw_not_ok _ call code) as [[[c what]|]| | |]; try contradiction. destruct H as (_ & -> & n & Hn & ->). exists n. split; [exact Hn|reflexivity].
Qed.
