(** * The C++ WKB parser: corollaries and cases *)
From Verif Require Import Base BaseFacts TypesSpec GeomSpec WkbSpec CppCoordModel CppWkbSpec CppWkbModel CppWkbTells
  WkbReaderProofs CppWkbProofs CppWkbReads CppWkbAccepts CppWkbPrefix CppWkbVisit.
Local Open Scope Z_scope.

Lemma visits_after blob dst s0 out st cur s' out' : wf_bytes blob -> parse blob s0 out = Ok (st, cur, s', out') ->
  (exists vs, geometry_vertices blob dst out' = Ok vs) /\ (exists es, geometry_edges blob dst out' = Ok es).
Proof.
  intros Hwf E. destruct (parse_any blob s0 out Hwf) as (st2 & cur2 & s2 & out2 & E2 & Hin & _).
  rewrite E in E2. injection E2 as _ _ _ <-. apply visits_total, Hin.
Qed.

Lemma parse_exact t s0 out : tree_ok t ->
  exists s' out', parse (tree_bytes t) s0 out = Ok (OK, Some (Z.of_nat (length (tree_bytes t))), s', out') /\
    tells (tree_bytes t) out' t.
Proof.
  intros Hok. destruct (parse_ok t [] s0 out Hok) as (s' & out' & E & Ht). rewrite app_nil_r in *. eauto.
Qed.

Lemma parse_extra t rest s0 out : tree_ok t -> rest <> [] ->
  exists s' out', parse (tree_bytes t ++ rest) s0 out =
      Ok (TOO_MANY_BYTES, Some (Z.of_nat (length (tree_bytes t))), s', out') /\
    tells (tree_bytes t ++ rest) out' t.
Proof.
  intros Hok Hne. destruct (parse_ok t rest s0 out Hok) as (s' & out' & E & Ht).
  destruct rest; [congruence|]. eauto.
Qed.

Lemma parse_short t p s0 out : tree_ok t -> strict_prefix p (tree_bytes t) ->
  exists s' out', parse p s0 out = Ok (TOO_FEW_BYTES, None, s', out').
Proof. intros Hok Hp. destruct (parse_truncated t p s0 out Hok Hp) as (s' & out' & E & _). eauto. Qed.

Lemma parse_standard g b s0 out : wkb g b -> wf_geom g ->
  exists t s' out', tree_ok t /\ tree_bytes t = b /\ tree_geom t = g /\
    parse b s0 out = Ok (OK, Some (Z.of_nat (length b)), s', out') /\ tells b out' t.
Proof.
  intros Hw Hwf. destruct (wkb_tree g b Hw Hwf) as (t & H1 & H2 & H3).
  destruct (parse_exact t s0 out H1) as (s' & out' & E & Ht). rewrite H3 in *. exists t, s', out'. auto.
Qed.

Lemma view_small blob s0 out : (N.of_nat (length blob) < 2 ^ 32)%N -> parse_view blob s0 out = parse blob s0 out.
Proof.
  intros H. unfold parse_view. rewrite wrap32_small by exact H. rewrite Nat2N.id, firstn_all. reflexivity.
Qed.

(** POINT (0 0), little-endian *)
Definition tiny : tree := TPoint (Header LE 1 None) XY [0; 0]%N.
Lemma tiny_ok : tree_ok tiny.
Proof.
  constructor; [split; [|exact I]; vm_compute; intuition congruence|]. split; [reflexivity|].
  repeat constructor.
Qed.

Lemma view_wraps : exists t rest, tree_ok t /\ rest <> [] /\ wf_bytes (tree_bytes t ++ rest) /\
  forall s0 out, exists cur s' out', parse_view (tree_bytes t ++ rest) s0 out = Ok (OK, cur, s', out').
Proof.
  exists tiny, (repeat 0%N (N.to_nat (2 ^ 32))).
  assert (N.of_nat (length (tree_bytes tiny ++ repeat 0%N (N.to_nat (2 ^ 32)))) = 21 + 1 * 2 ^ 32)%N as Hl.
  { rewrite app_length, repeat_length. change (length (tree_bytes tiny)) with 21%nat.
    rewrite Nat2N.inj_add, N2Nat.id. reflexivity. }
  split; [apply tiny_ok|]. split.
  { intros E. apply (f_equal (@length N)) in E. rewrite repeat_length in E.
    apply (f_equal N.of_nat) in E. rewrite N2Nat.id in E. discriminate E. }
  split.
  { apply wf_bytes_app. split; [apply tree_bytes_wf|]. apply Forall_forall. intros x Hx. apply repeat_spec in Hx.
    subst x. reflexivity. }
  intros s0 out. unfold parse_view. rewrite Hl. unfold wrap32.
  change u32_max1 with (2 ^ 32)%N. rewrite N.mod_add by discriminate. change (21 mod 2 ^ 32)%N with 21%N.
  replace (N.to_nat 21) with (length (tree_bytes tiny) + 0)%nat by reflexivity.
  rewrite firstn_app_2. cbn [firstn]. rewrite app_nil_r.
  destruct (parse_exact tiny s0 out tiny_ok) as (s' & out' & E & _). eauto.
Qed.

(** SRID=4326;GEOMETRYCOLLECTION Z (POINT Z (..), POLYGON ((..))) as big-endian EWKB with little-endian members. *)
Definition sample : tree :=
  TColl (Header BE 0xA0000007 (Some 4326%N)) CCollection XYZ
    [TPoint (Header LE 1001 None) XYZ [1; 2; 3]%N;
     TPoly (Header LE 3 None) XY [[[4; 5]; [6; 7]]]%N].

Lemma sample_ok : tree_ok sample.
Proof.
  constructor.
  - split; [vm_compute; intuition congruence|reflexivity].
  - reflexivity.
  - repeat constructor; vm_compute; intuition congruence.
Qed.

Lemma sample_tells s' out' cur : parse (tree_bytes sample) (PState 5 6 7 8 9) (WGeom 3 2 1 [] 9 [WGeom 7 7 7 [] 3 [] 3] 4) =
  Ok (OK, cur, s', out') -> tells (tree_bytes sample) out' sample.
Proof.
  intros E. destruct (parse_exact sample (PState 5 6 7 8 9) (WGeom 3 2 1 [] 9 [WGeom 7 7 7 [] 3 [] 3] 4) sample_ok)
    as (s2 & out2 & E2 & Ht). rewrite E in E2. injection E2 as _ _ <-. exact Ht.
Qed.

(** What an earlier call may have left behind. *)
Definition dirty_parser : pstate := PState 5 6 7 8 9.
Definition dirty_output : wgeom := WGeom 3 2 1 [] 9 [WGeom 7 7 7 [] 3 [] 3] 4.

Lemma safe_case : wf_bytes (tree_bytes sample ++ [7; 7]%N) /\
  (exists s' out', parse (tree_bytes sample ++ [7; 7]%N) dirty_parser dirty_output =
     Ok (TOO_MANY_BYTES, Some 87, s', out')) /\
  (exists s' out', parse (firstn 70 (tree_bytes sample)) dirty_parser dirty_output = Ok (TOO_FEW_BYTES, None, s', out') /\
     wg_num_geometries out' = 2%N).
Proof.
  split; [apply wf_bytes_app; split; [apply tree_bytes_wf|repeat constructor]|].
  split.
  - eexists _, _. vm_compute. reflexivity.
  - eexists _, _. split; [vm_compute; reflexivity|reflexivity].
Qed.

Lemma decode_case : tree_ok sample /\ length (tree_bytes sample) = 87%nat /\
  tree_geom sample = GColl CCollection XYZ [GPoint XYZ [[1; 2; 3]]; GPoly XY [[[4; 5]; [6; 7]]]]%N /\
  strict_prefix (firstn 20 (tree_bytes sample)) (tree_bytes sample) /\
  (exists s' out', parse (tree_bytes sample) dirty_parser dirty_output = Ok (OK, Some 87, s', out') /\
     wg_srid out' = 4326%N /\ wg_num_geometries out' = 2%N).
Proof.
  split; [apply sample_ok|]. split; [reflexivity|]. split; [reflexivity|]. split.
  - exists (skipn 20 (tree_bytes sample)). split; [vm_compute; discriminate|]. symmetry. apply firstn_skipn.
  - eexists _, _. split; [vm_compute; reflexivity|split; reflexivity].
Qed.

Lemma invalid_case : wf_bytes [2; 0; 0; 0; 0]%N /\ wf_bytes [1; 8; 0; 0; 0]%N /\
  (exists s' out', parse [2; 0; 0; 0; 0]%N dirty_parser dirty_output = Ok (INVALID_ENDIAN, None, s', out')) /\
  (exists s' out', parse [1; 8; 0; 0; 0]%N dirty_parser dirty_output = Ok (INVALID_GEOMETRY_TYPE, None, s', out')).
Proof.
  split; [repeat constructor|]. split; [repeat constructor|].
  split; eexists _, _; vm_compute; reflexivity.
Qed.

Lemma visit_case : exists s' g, parse (tree_bytes sample) dirty_parser dirty_output = Ok (OK, Some 87, s', g) /\
  tells (tree_bytes sample) g sample /\
  geometry_vertices (tree_bytes sample) XYZ g = Ok [[1; 2; 3]; [4; 5; qnan]; [6; 7; qnan]]%N /\
  geometry_edges (tree_bytes sample) XY g = Ok [([1; 2], [1; 2]); ([4; 5], [6; 7])]%N.
Proof.
  destruct (parse_exact sample dirty_parser dirty_output sample_ok) as (s' & g & E & Ht).
  exists s', g. split; [exact E|]. split; [exact Ht|].
  rewrite (geometry_vertices_ok _ XYZ _ _ sample_ok Ht), (geometry_edges_ok _ XY _ _ sample_ok Ht).
  split; reflexivity.
Qed.
