From Verif Require Import Base BaseFacts TypesModel TypesProofs GeomSpec GeomFacts NodesModel NodesSpec WkbSpec WkbReaderModel.
Local Open Scope Z_scope.

(** ** Cursor into the source *)

Definition tail_at (src : bytes) (p : Z) (l : bytes) : Prop :=
  exists pre, src = pre ++ l /\ p = Z.of_nat (length pre).

Lemma tail_at_0 src : tail_at src 0 src.
Proof. exists []. split; reflexivity. Qed.

Lemma tail_at_slice src p x l k : tail_at src p (x ++ l) -> length x = k -> slice src p k = Some x.
Proof. intros (pre & -> & ->) Hk. apply slice_app_at. exact Hk. Qed.

Lemma tail_at_adv src p x l : tail_at src p (x ++ l) -> tail_at src (p + Z.of_nat (length x)) l.
Proof.
  intros (pre & -> & ->). exists (pre ++ x). split; [apply app_assoc|]. rewrite app_length. lia.
Qed.

Lemma tail_at_adv' src p x l k : tail_at src p (x ++ l) -> k = Z.of_nat (length x) -> tail_at src (p + k) l.
Proof. intros H ->. apply tail_at_adv, H. Qed.

Definition is_be (e : endian) : bool := match e with LE => false | BE => true end.

Lemma enc32_length e n : length (enc32 e n) = 4%nat.
Proof. destruct e; cbn [enc32]; [apply le_bytes_length|apply be_bytes_length]. Qed.
Lemma enc64_length e n : length (enc64 e n) = 8%nat.
Proof. destruct e; cbn [enc64]; [apply le_bytes_length|apply be_bytes_length]. Qed.

Lemma dec32 e n : (n < 2 ^ 32)%N ->
  (if is_be e then bswap32 (le_val (enc32 e n)) else le_val (enc32 e n)) = n.
Proof.
  intros Hn. destruct e; cbn [is_be enc32].
  - apply le_val_bytes. exact Hn.
  - rewrite bswap32_be; [|apply be_bytes_wf|apply be_bytes_length].
    unfold be_val, be_bytes. rewrite rev_involutive. apply le_val_bytes. exact Hn.
Qed.

Lemma dec64 e n : (n < 2 ^ 64)%N ->
  (if is_be e then bswap64 (le_val (enc64 e n)) else le_val (enc64 e n)) = n.
Proof.
  intros Hn. destruct e; cbn [is_be enc64].
  - apply le_val_bytes. exact Hn.
  - rewrite bswap64_be; [|apply be_bytes_wf|apply be_bytes_length].
    unfold be_val, be_bytes. rewrite rev_involutive. apply le_val_bytes. exact Hn.
Qed.

(** ** Lengths of encodings *)

Lemma flat_enc64_length e ws : length (flat_map (enc64 e) ws) = (8 * length ws)%nat.
Proof.
  induction ws as [|w ws IH]; cbn [flat_map length]; [reflexivity|].
  rewrite app_length, enc64_length, IH. lia.
Qed.

Lemma enc_coords_concat e cs : enc_coords e cs = flat_map (enc64 e) (concat cs).
Proof.
  unfold enc_coords, enc_coord. induction cs as [|c cs IH]; cbn [flat_map concat]; [reflexivity|].
  rewrite flat_map_app, IH. reflexivity.
Qed.

Lemma wf_seq_lengths d cs : wf_seq d cs -> Forall (fun c => length c = ndim d) cs.
Proof. apply Forall_impl. intros c [H _]. exact H. Qed.

Lemma enc_coords_length e d cs : wf_seq d cs -> length (enc_coords e cs) = (8 * (length cs * ndim d))%nat.
Proof.
  intros H. rewrite enc_coords_concat, flat_enc64_length.
  rewrite (concat_length_const (ndim d)); [reflexivity|]. apply wf_seq_lengths. exact H.
Qed.

Lemma nth_error_concat {A} k (ls : list (list A)) i j l :
  Forall (fun l => length l = k) ls -> nth_error ls i = Some l -> (j < k)%nat ->
  nth_error (concat ls) (i * k + j) = nth_error l j.
Proof.
  intros HF. revert i; induction HF as [|x ls Hx HF IH]; intros i Hi Hj; [destruct i; discriminate|].
  cbv beta in Hx. cbn [concat]. destruct i as [|i]; cbn [nth_error] in Hi.
  - injection Hi as ->. cbn [Nat.mul Nat.add]. apply nth_error_app1. lia.
  - rewrite nth_error_app2 by nia. replace (S i * k + j - length x)%nat with (i * k + j)%nat by lia.
    apply IH; assumption.
Qed.

Lemma flat_enc64_split e ws k w : nth_error ws k = Some w ->
  exists a b, flat_map (enc64 e) ws = a ++ enc64 e w ++ b /\ length a = (8 * k)%nat.
Proof.
  revert k; induction ws as [|x ws IH]; intros k Hk; [destruct k; discriminate|].
  destruct k as [|k]; cbn [nth_error flat_map] in *.
  - injection Hk as ->. exists [], (flat_map (enc64 e) ws). split; [reflexivity|]. reflexivity.
  - destruct (IH k Hk) as (a & b & E & Hl). exists (enc64 e x ++ a), b. rewrite E. split.
    + rewrite <- !app_assoc. reflexivity.
    + rewrite app_length, enc64_length. lia.
Qed.

(** ** Elementary reads *)

Lemma endian_byte_dec e : negb (N.eqb (le_val [endian_byte e]) 1) = is_be e.
Proof. destruct e; reflexivity. Qed.

Lemma read_endian_ok src s e l :
  tail_at src (rs_pos s) (endian_byte e :: l) -> 1 <= rs_size s ->
  read_endian src s = Ok {| rs_pos := rs_pos s + 1; rs_size := rs_size s - 1; rs_swap := is_be e |} /\
  tail_at src (rs_pos s + 1) l.
Proof.
  intros Ht Hs. unfold read_endian. destruct (Z.ltb_spec 0 (rs_size s)); [|lia].
  change (endian_byte e :: l) with ([endian_byte e] ++ l) in Ht.
  rewrite (tail_at_slice _ _ _ _ 1 Ht eq_refl). cbn [or_ub obind]. rewrite endian_byte_dec.
  split; [reflexivity|]. exact (tail_at_adv' _ _ _ _ 1 Ht eq_refl).
Qed.

Lemma read_u32_ok src s e n l :
  tail_at src (rs_pos s) (enc32 e n ++ l) -> 4 <= rs_size s -> rs_swap s = is_be e -> (n < 2 ^ 32)%N ->
  read_u32 src s = Ok ({| rs_pos := rs_pos s + 4; rs_size := rs_size s - 4; rs_swap := is_be e |}, n) /\
  tail_at src (rs_pos s + 4) l.
Proof.
  intros Ht Hs Hsw Hn. unfold read_u32. destruct (Z.leb_spec 4 (rs_size s)); [|lia].
  rewrite (tail_at_slice _ _ _ _ 4 Ht (enc32_length e n)). cbn [or_ub obind]. rewrite Hsw, dec32 by exact Hn.
  split; [reflexivity|]. apply (tail_at_adv' _ _ _ _ 4 Ht). rewrite enc32_length. reflexivity.
Qed.

(** ** Coordinates *)

Definition node_meta (nd : node) := (nd_size nd, nd_type nd, nd_dims nd, nd_swap nd, nd_level nd).

Lemma set_coords_meta k i stride pos nd : node_meta (set_coords k i stride pos nd) = node_meta nd.
Proof. revert i nd; induction k as [|k IH]; intros i nd; cbn [set_coords]; [reflexivity|]. rewrite IH. reflexivity. Qed.

Lemma set_coords_get d stride pos nd j : (j < ndim d)%nat ->
  let nd' := set_coords (ndim d) 0 stride pos nd in
  qget (nd_coords nd') j = Some (1%nat, pos + Z.of_nat j * 8) /\ qget (nd_stride nd') j = Some stride.
Proof.
  intros Hj. cbv zeta. destruct d; cbn [ndim ordinates length] in *;
    destruct j as [|[|[|[|?]]]]; try lia; split; reflexivity.
Qed.

Lemma load64_wkb src p b : slice src p 8 = Some b -> load64 (wkb_mem src) (1%nat, p) = Some (le_val b).
Proof. intros H. unfold load64, load_bytes, wkb_mem. cbn [fst snd nth_error]. rewrite H. reflexivity. Qed.

Lemma seq_words src p e d cs l i j c w :
  tail_at src p (enc_coords e cs ++ l) -> wf_seq d cs ->
  nth_error cs i = Some c -> nth_error c j = Some w -> (j < ndim d)%nat ->
  slice src (p + Z.of_nat j * 8 + Z.of_nat i * (Z.of_nat (ndim d) * 8)) 8 = Some (enc64 e w).
Proof.
  intros Ht Hwf Hi Hw Hj.
  pose proof (nth_error_concat (ndim d) cs i j c (wf_seq_lengths _ _ Hwf) Hi Hj) as Hn.
  rewrite Hw in Hn. destruct (flat_enc64_split e _ _ _ Hn) as (a & b & E & Hl).
  rewrite <- enc_coords_concat in E. rewrite E in Ht. rewrite <- !app_assoc in Ht.
  apply tail_at_adv in Ht. rewrite Hl in Ht.
  replace (p + Z.of_nat j * 8 + Z.of_nat i * (Z.of_nat (ndim d) * 8)) with (p + Z.of_nat (8 * (i * ndim d + j))) by lia.
  apply (tail_at_slice _ _ _ _ 8 Ht). apply enc64_length.
Qed.

Lemma wrap32_small n : (n < 2 ^ 32)%N -> wrap32 n = n.
Proof. intros H. apply N.mod_small. exact H. Qed.

Lemma read_node_coordinates_ok src s e d cs l nd ty lvl :
  tail_at src (rs_pos s) (enc_coords e cs ++ l) -> wf_seq d cs ->
  Z.of_nat (length (enc_coords e cs)) <= rs_size s -> Z.of_nat (length (enc_coords e cs)) < 2 ^ 35 ->
  node_meta nd = (N.of_nat (length cs), ty, dimN d, is_be e, lvl) ->
  exists nd',
    read_node_coordinates s (N.of_nat (length cs)) (N.of_nat (ndim d)) nd =
      Ok ({| rs_pos := rs_pos s + Z.of_nat (length (enc_coords e cs)); rs_size := rs_size s; rs_swap := rs_swap s |}, nd') /\
    tail_at src (rs_pos s + Z.of_nat (length (enc_coords e cs))) l /\
    seq_node (wkb_mem src) ty lvl d cs nd'.
Proof.
  intros Ht Hwf Hs Hlim Hmeta. pose proof (enc_coords_length e d cs Hwf) as Hlen.
  unfold read_node_coordinates.
  assert (N.of_nat (length cs) * N.of_nat (ndim d) < 2 ^ 32)%N as Hsmall.
  { change (2 ^ 35) with (8 * 2 ^ 32) in Hlim. change (2 ^ 32)%N with (Z.to_N (2 ^ 32)). lia. }
  rewrite wrap32_small by exact Hsmall.
  replace (Z.of_N (N.of_nat (length cs) * N.of_nat (ndim d) * 8)) with (Z.of_nat (length (enc_coords e cs))) by lia.
  destruct (Z.ltb_spec (rs_size s) (Z.of_nat (length (enc_coords e cs)))); [lia|].
  eexists. split; [reflexivity|]. split; [apply tail_at_adv, Ht|].
  destruct (N.eqb_spec (N.of_nat (length cs)) 0) as [E0|E0].
  - assert (cs = []) as -> by (destruct cs; cbn in *; [reflexivity|lia]).
    unfold node_meta in Hmeta. injection Hmeta as H1 H2 H3 H4 H5.
    constructor; try assumption. intros i j c Hi. destruct i; discriminate.
  - rewrite Nat2N.id.
    set (nd' := set_coords (ndim d) 0 (Z.of_N (N.of_nat (ndim d)) * 8) (rs_pos s) nd).
    assert (node_meta nd' = node_meta nd) as Hm by apply set_coords_meta.
    rewrite Hmeta in Hm. unfold node_meta in Hm. injection Hm as H1 H2 H3 H4 H5.
    constructor; try assumption.
    intros i j c Hi Hj. unfold node_ordinate.
    destruct (set_coords_get d (Z.of_N (N.of_nat (ndim d)) * 8) (rs_pos s) nd j Hj) as [Ep Es].
    fold nd' in Ep, Es. rewrite Ep, Es. rewrite H4.
    assert (wf_coord d c) as [Hcl Hcw].
    { unfold wf_seq in Hwf. rewrite Forall_forall in Hwf. apply Hwf. eapply nth_error_In. exact Hi. }
    destruct (nth_error c j) as [w|] eqn:Ew; [|apply nth_error_None in Ew; lia].
    pose proof (seq_words _ _ _ _ _ _ _ _ _ _ Ht Hwf Hi Ew Hj) as Hsl.
    unfold ptr_add. cbn [fst snd].
    replace (rs_pos s + Z.of_nat j * 8 + Z.of_nat i * (Z.of_N (N.of_nat (ndim d)) * 8))
      with (rs_pos s + Z.of_nat j * 8 + Z.of_nat i * (Z.of_nat (ndim d) * 8)) by lia.
    rewrite (load64_wkb _ _ _ Hsl). f_equal. apply dec64.
    rewrite Forall_forall in Hcw. apply Hcw. eapply nth_error_In. exact Ew.
Qed.

(** ** Headers *)

Definition base_ok (base : N) : Prop := (1 <= base <= 7)%N.

Lemma resolve_type_ok s srid d base : base_ok base ->
  resolve_type (type_word s srid d base) = (base, has_z d, has_m d) /\
  ewkb_has (type_word s srid d base) EWKB_SRID_BIT = match srid with Some _ => true | None => false end /\
  (type_word s srid d base < 2 ^ 32)%N.
Proof.
  unfold base_ok. intros H.
  assert (base = 1 \/ base = 2 \/ base = 3 \/ base = 4 \/ base = 5 \/ base = 6 \/ base = 7)%N as Hb by lia.
  destruct srid as [n|]; destruct s, d;
    (destruct Hb as [->|[->|[->|[->|[->|[->| ->]]]]]]; vm_compute; auto).
Qed.

Lemma resolve_dims_ok d : resolve_dims (has_z d) (has_m d) = dimN d.
Proof. destruct d; reflexivity. Qed.
Lemma coord_size_ok d : (2 + b2n (has_z d) + b2n (has_m d))%N = N.of_nat (ndim d).
Proof. destruct d; reflexivity. Qed.

Lemma enc_header_length e s srid d base :
  length (enc_header e s srid d base) = (match srid with Some _ => 9 | None => 5 end)%nat.
Proof.
  unfold enc_header. rewrite !app_length, enc32_length. destruct srid; [rewrite enc32_length|]; reflexivity.
Qed.

(** Reading a header: everything of [read_geometry] up to the size. *)
Definition read_header (src : bytes) (s : rstate) : outcome (rstate * (N * bool * bool)) :=
  do s <- read_endian src s;
  do (s, w) <- read_u32 src s;
  do s <- (if ewkb_has w EWKB_SRID_BIT then do (s, _) <- read_u32 src s; Ok s else Ok s);
  Ok (s, resolve_type w).

Lemma read_header_ok src st e s srid d base l :
  base_ok base -> srid_ok srid ->
  tail_at src (rs_pos st) (enc_header e s srid d base ++ l) ->
  Z.of_nat (length (enc_header e s srid d base)) <= rs_size st ->
  exists st', read_header src st = Ok (st', (base, has_z d, has_m d)) /\
    tail_at src (rs_pos st') l /\ rs_swap st' = is_be e /\
    rs_size st' = rs_size st - Z.of_nat (length (enc_header e s srid d base)).
Proof.
  intros Hb Hsrid Ht Hsz. destruct (resolve_type_ok s srid d base Hb) as (Hrt & Hbit & Hw).
  rewrite enc_header_length in *. unfold read_header.
  unfold enc_header in Ht. rewrite <- !app_assoc in Ht. cbn [app] in Ht.
  destruct (read_endian_ok _ _ _ _ Ht) as [E1 Ht1]; [destruct srid; lia|]. rewrite E1. cbn [obind].
  edestruct (read_u32_ok src {| rs_pos := rs_pos st + 1; rs_size := rs_size st - 1; rs_swap := is_be e |}) as [E2 Ht2];
    [exact Ht1|cbn; destruct srid; lia|reflexivity|exact Hw|].
  rewrite E2. cbn [obind rs_pos rs_size] in *. rewrite Hbit, Hrt.
  destruct srid as [n|].
  - edestruct (read_u32_ok src {| rs_pos := rs_pos st + 1 + 4; rs_size := rs_size st - 1 - 4; rs_swap := is_be e |}) as [E3 Ht3];
      [exact Ht2|cbn; lia|reflexivity|exact Hsrid|].
    rewrite E3. cbn [obind rs_pos rs_size] in *. eexists. split; [reflexivity|]. cbn [rs_pos rs_size rs_swap].
    split; [exact Ht3|]. split; [reflexivity|lia].
  - cbn [obind]. eexists. split; [reflexivity|]. cbn [rs_pos rs_size rs_swap].
    split; [exact Ht2|]. split; [reflexivity|lia].
Qed.

(** ** Loops *)

Lemma read_n_succ rd f n s : (0 < n)%N ->
  read_n (S f) rd n s = (do (s, a) <- rd s; do (s, b) <- read_n f rd (n - 1) s; Ok (s, a ++ b)).
Proof. intros H. cbn [read_n]. destruct (N.eqb_spec n 0); [lia|reflexivity]. Qed.

Lemma read_n_zero rd f s : read_n f rd 0 s = Ok (s, []).
Proof. destruct f; reflexivity. Qed.

Lemma read_rings_ok src e d rings template lvl f st l :
  Forall (wf_seq d) rings -> Forall count_ok rings ->
  tail_at src (rs_pos st) (flat_map (enc_ring e) rings ++ l) ->
  Z.of_nat (length (flat_map (enc_ring e) rings)) <= rs_size st ->
  Z.of_nat (length (flat_map (enc_ring e) rings)) < 2 ^ 35 ->
  rs_swap st = is_be e ->
  node_meta template = (nd_size template, 2%N, dimN d, is_be e, lvl) ->
  (length rings <= f)%nat ->
  exists st' nodes,
    read_n f (read_ring src (N.of_nat (ndim d)) template) (N.of_nat (length rings)) st = Ok (st', nodes) /\
    tail_at src (rs_pos st') l /\
    rs_size st - Z.of_nat (length (flat_map (enc_ring e) rings)) <= rs_size st' /\
    Forall2 (fun cs rn => seq_node (wkb_mem src) 2 lvl d cs rn) rings nodes.
Proof.
  intros Hwf Hcnt. revert f st. induction rings as [|cs rings IH]; intros f st Ht Hsz Hlim Hsw Hmeta Hf.
  - cbn [length]. change (N.of_nat 0) with 0%N. rewrite read_n_zero.
    exists st, []. cbn [flat_map app length] in *. split; [reflexivity|]. split; [exact Ht|]. split; [lia|constructor].
  - destruct f as [|f]; [cbn in Hf; lia|].
    apply Forall_cons_iff in Hwf as [Hwf1 Hwf]. apply Forall_cons_iff in Hcnt as [Hc1 Hcnt].
    cbn [length]. rewrite read_n_succ by lia.
    cbn [flat_map] in *. unfold enc_ring at 1 in Ht. rewrite !app_length in *. unfold enc_ring at 1 in Hsz.
    unfold enc_ring at 1 in Hlim. rewrite app_length, enc32_length in *. rewrite <- !app_assoc in Ht.
    unfold read_ring at 1.
    destruct (read_u32_ok src st e (N.of_nat (length cs)) _ Ht) as [E1 Ht1]; [lia|exact Hsw|exact Hc1|].
    rewrite E1. cbn [obind].
    edestruct (read_node_coordinates_ok src {| rs_pos := rs_pos st + 4; rs_size := rs_size st - 4; rs_swap := is_be e |}
      e d cs (flat_map (enc_ring e) rings ++ l) {| nd_coords := nd_coords template; nd_stride := nd_stride template; nd_size := N.of_nat (length cs);
                  nd_type := nd_type template; nd_dims := nd_dims template; nd_swap := nd_swap template;
                  nd_level := nd_level template |} 2%N lvl) as (nd' & E2 & Ht2 & Hsn);
      [exact Ht1|exact Hwf1|cbn; lia|lia| |].
    { unfold node_meta in *. cbn. congruence. }
    rewrite E2. cbn [obind rs_pos rs_size rs_swap] in *.
    replace (N.of_nat (S (length rings)) - 1)%N with (N.of_nat (length rings)) by lia.
    match goal with |- context[read_n f _ _ ?s] => set (st2 := s) end.
    destruct (IH Hwf Hcnt f st2) as (st' & nodes & E3 & Ht3 & Hsz3 & HF);
      [exact Ht2|subst st2; cbn [rs_size rs_pos]; lia|lia|reflexivity|exact Hmeta|cbn in Hf; lia|].
    rewrite E3. cbn [obind]. exists st', (nd' :: nodes). split; [reflexivity|]. split; [exact Ht3|].
    split; [unfold enc_ring at 1; rewrite app_length, enc32_length; subst st2; cbn [rs_size rs_pos] in *; lia|]. constructor; assumption.
Qed.

(** ** The main induction *)

Lemma levels_coll k d parts :
  levels (GColl k d parts) = S (fold_right (fun g n => Nat.max (levels g) n) 1%nat parts).
Proof. reflexivity. Qed.

Lemma read_geometry_unfold src f level s :
  read_geometry src (S f) level s =
  do (s, t) <- read_header src s;
  let '(g, z, m) := t in
  do (s, size) <- (if negb (N.eqb g 1) then read_u32 src s else Ok (s, 1%N));
  let coord_size := (2 + b2n z + b2n m)%N in
  let nd := {| nd_coords := nd_coords fresh_node; nd_stride := nd_stride fresh_node; nd_size := size;
               nd_type := (g mod 256)%N; nd_dims := resolve_dims z m; nd_swap := rs_swap s;
               nd_level := level |} in
  if (N.eqb g 1 || N.eqb g 2) then
    do (s, nd) <- read_node_coordinates s size coord_size nd;
    Ok (s, [nd])
  else if N.eqb g 3 then
    if N.eqb level 255 then Err ENOTSUP
    else
      let template := {| nd_coords := nd_coords nd; nd_stride := nd_stride nd; nd_size := nd_size nd;
                         nd_type := 2%N; nd_dims := nd_dims nd; nd_swap := nd_swap nd;
                         nd_level := (level + 1)%N |} in
      do (s, rings) <- read_n f (read_ring src coord_size template) size s;
      Ok (s, nd :: rings)
  else if (N.eqb g 4 || N.eqb g 5 || N.eqb g 6 || N.eqb g 7) then
    if N.eqb level 255 then Err ENOTSUP
    else
      do (s, children) <- read_n f (read_geometry src f (level + 1)%N) size s;
      Ok (s, nd :: children)
  else Err EINVAL.
Proof.
  cbn [read_geometry]. unfold read_header.
  destruct (read_endian src s) as [s1| | |]; cbn [obind]; try reflexivity.
  destruct (read_u32 src s1) as [[s2 w]| | |]; cbn [obind]; try reflexivity.
  destruct (ewkb_has w EWKB_SRID_BIT).
  - destruct (read_u32 src s2) as [[s3 w3]| | |]; reflexivity.
  - reflexivity.
Qed.

Definition reads (src : bytes) (g : geom) : Prop :=
  forall b l st f lvl,
    wkb g b -> wf_geom g -> tail_at src (rs_pos st) (b ++ l) ->
    Z.of_nat (length b) <= rs_size st -> Z.of_nat (length b) < 2 ^ 35 ->
    (length b < f)%nat -> (N.to_nat lvl + levels g <= 256)%nat ->
    exists st' nodes, read_geometry src f lvl st = Ok (st', nodes) /\
      tail_at src (rs_pos st') l /\ rs_size st - Z.of_nat (length b) <= rs_size st' /\
      repr_geom (wkb_mem src) lvl nodes g.

Lemma read_parts_ok src gs : Forall (reads src) gs ->
  forall b l st f f' lvl,
    wkb_parts gs b -> wf_geoms gs -> tail_at src (rs_pos st) (b ++ l) ->
    Z.of_nat (length b) <= rs_size st -> Z.of_nat (length b) < 2 ^ 35 ->
    (length b < f)%nat -> (length b <= f')%nat ->
    (N.to_nat lvl + fold_right (fun g n => Nat.max (levels g) n) 1 gs <= 256)%nat ->
    exists st' nodes, read_n f' (read_geometry src f lvl) (N.of_nat (length gs)) st = Ok (st', nodes) /\
      tail_at src (rs_pos st') l /\ rs_size st - Z.of_nat (length b) <= rs_size st' /\
      repr_parts (wkb_mem src) lvl nodes gs.
Proof.
  induction 1 as [|g gs Hg Hgs IH]; intros b l st f f' lvl Hw Hwf Ht Hsz Hlim Hf Hf' Hlv.
  - inversion Hw; subst. cbn [length]. change (N.of_nat 0) with 0%N. rewrite read_n_zero.
    exists st, []. split; [reflexivity|]. split; [exact Ht|]. split; [cbn; lia|constructor].
  - inversion Hw as [|? ? b1 b2 Hw1 Hw2]; subst. inversion Hwf as [|? ? Hwf1 Hwf2]; subst.
    cbn [fold_right] in Hlv. rewrite app_length in *. rewrite <- app_assoc in Ht.
    assert (5 <= length b1)%nat as Hb1.
    { inversion Hw1; subst; rewrite !app_length, enc_header_length; destruct srid; lia. }
    destruct f' as [|f']; [lia|].
    destruct (Hg b1 (b2 ++ l) st f lvl Hw1 Hwf1 Ht) as (st1 & n1 & E1 & Ht1 & Hs1 & Hr1); try lia.
    cbn [length]. rewrite read_n_succ by lia. rewrite E1. cbn [obind].
    replace (N.of_nat (S (length gs)) - 1)%N with (N.of_nat (length gs)) by lia.
    destruct (IH b2 l st1 f f' lvl Hw2 Hwf2 Ht1) as (st2 & n2 & E2 & Ht2 & Hs2 & Hr2); try lia.
    rewrite E2. cbn [obind]. exists st2, (n1 ++ n2). split; [reflexivity|]. split; [exact Ht2|].
    split; [lia|]. constructor; assumption.
Qed.

Lemma coll_code_ok k : base_ok (coll_code k) /\ (4 <= coll_code k <= 7)%N.
Proof. unfold base_ok. destruct k; cbn; lia. Qed.

Lemma read_geometry_ok src g : reads src g.
Proof.
  induction g as [d cs|d cs|d rings|k d parts IH] using geom_ind';
    intros b l st f lvl Hw Hwf Ht Hsz Hlim Hf Hlv; inversion Hw; subst; clear Hw;
    (destruct f as [|f]; [lia|]); rewrite read_geometry_unfold.
  - (* point *)
    rewrite app_length in *. rewrite <- app_assoc in Ht.
    destruct (read_header_ok src st e s srid d 1 _ ltac:(unfold base_ok; lia) ltac:(assumption) Ht ltac:(lia))
      as (st1 & E1 & Ht1 & Hsw & Hs1).
    rewrite E1. cbn [obind]. change (1 =? 1)%N with true. cbn [negb obind orb].
    rewrite coord_size_ok, resolve_dims_ok.
    inversion Hwf as [? ? Hseq _| | |]; subst.
    assert (enc_coord e c = enc_coords e [c]) as Ec.
    { unfold enc_coords. cbn [flat_map]. rewrite app_nil_r. reflexivity. }
    rewrite Ec in *.
    match goal with |- context[read_node_coordinates _ _ _ ?n] => set (nd := n) end.
    edestruct (read_node_coordinates_ok src st1 e d [c] l nd 1%N lvl) as (nd' & E2 & Ht2 & Hsn);
      [exact Ht1|exact Hseq|lia|lia| |].
    { subst nd. unfold node_meta. cbn. rewrite Hsw. reflexivity. }
    change (N.of_nat (length [c])) with 1%N in E2. rewrite E2. cbn [obind].
    eexists _, _. split; [reflexivity|]. cbn [rs_pos rs_size]. split; [exact Ht2|]. split; [lia|].
    constructor. exact Hsn.
  - (* linestring *)
    rewrite !app_length in *. rewrite enc32_length in *. rewrite <- !app_assoc in Ht.
    destruct (read_header_ok src st e s srid d 2 _ ltac:(unfold base_ok; lia) ltac:(assumption) Ht ltac:(lia))
      as (st1 & E1 & Ht1 & Hsw & Hs1).
    rewrite E1. cbn [obind]. change (2 =? 1)%N with false. change (2 =? 2)%N with true. cbn [negb obind orb].
    destruct (read_u32_ok src st1 e (N.of_nat (length cs)) _ Ht1) as [E2 Ht2]; [lia|exact Hsw|assumption|].
    rewrite E2. cbn [obind]. rewrite coord_size_ok, resolve_dims_ok.
    inversion Hwf as [|? ? Hseq| |]; subst.
    match goal with |- context[read_node_coordinates ?s0 _ _ ?n] => set (nd := n); set (st2 := s0) end.
    edestruct (read_node_coordinates_ok src st2 e d cs l nd 2%N lvl) as (nd' & E3 & Ht3 & Hsn);
      [exact Ht2|exact Hseq|subst st2; cbn [rs_size rs_pos]; lia|lia| |].
    { subst nd. unfold node_meta. cbn. reflexivity. }
    rewrite E3. cbn [obind].
    eexists _, _. split; [reflexivity|]. cbn [rs_pos rs_size]. split; [exact Ht3|].
    split; [subst st2; cbn [rs_size rs_pos]; lia|]. constructor. exact Hsn.
  - (* polygon *)
    rewrite !app_length in *. rewrite enc32_length in *. rewrite <- !app_assoc in Ht.
    destruct (read_header_ok src st e s srid d 3 _ ltac:(unfold base_ok; lia) ltac:(assumption) Ht ltac:(lia))
      as (st1 & E1 & Ht1 & Hsw & Hs1).
    rewrite E1. cbn [obind]. change (3 =? 1)%N with false. change (3 =? 2)%N with false. change (3 =? 3)%N with true.
    cbn [negb obind orb].
    destruct (read_u32_ok src st1 e (N.of_nat (length rings)) _ Ht1) as [E2 Ht2]; [lia|exact Hsw|assumption|].
    rewrite E2. cbn [obind]. rewrite coord_size_ok, resolve_dims_ok.
    cbn [levels] in Hlv. destruct (N.eqb_spec lvl 255); [lia|].
    inversion Hwf as [| |? ? Hseq|]; subst.
    match goal with |- context[read_n _ (read_ring _ _ ?t) _ ?s0] => set (tm := t); set (st2 := s0) end.
    destruct (read_rings_ok src e d rings tm (lvl + 1) f st2 l) as (st3 & nodes & E3 & Ht3 & Hs3 & HF);
      [exact Hseq|assumption|exact Ht2|subst st2; cbn [rs_size rs_pos]; lia|lia|reflexivity|subst tm; reflexivity| |].
    { assert (length rings <= length (flat_map (enc_ring e) rings))%nat; [|lia].
      clear. induction rings as [|r rings IH]; cbn [flat_map length]; [lia|].
      rewrite app_length. unfold enc_ring at 1. rewrite app_length, enc32_length. lia. }
    rewrite E3. cbn [obind].
    eexists _, _. split; [reflexivity|]. split; [exact Ht3|].
    split; [subst st2; cbn in Hs3; lia|]. constructor; [|exact HF]. constructor; reflexivity.
  - (* collection *)
    rewrite !app_length in *. rewrite enc32_length in *. rewrite <- !app_assoc in Ht.
    destruct (coll_code_ok k) as [Hbase Hrange].
    destruct (read_header_ok src st e s srid d (coll_code k) _ Hbase ltac:(assumption) Ht ltac:(lia))
      as (st1 & E1 & Ht1 & Hsw & Hs1).
    rewrite E1. cbn [obind].
    assert (coll_code k =? 1 = false)%N as Eb1 by lia.
    assert (coll_code k =? 2 = false)%N as Eb2 by lia.
    assert (coll_code k =? 3 = false)%N as Eb3 by lia.
    assert ((coll_code k =? 4) || (coll_code k =? 5) || (coll_code k =? 6) || (coll_code k =? 7) = true)%N as Eb4 by lia.
    rewrite Eb1, Eb2, Eb3, Eb4. cbn [negb obind orb].
    destruct (read_u32_ok src st1 e (N.of_nat (length parts)) _ Ht1) as [E2 Ht2]; [lia|exact Hsw|assumption|].
    rewrite E2. cbn [obind]. rewrite resolve_dims_ok.
    rewrite levels_coll in Hlv.
    assert (1 <= fold_right (fun g n => Nat.max (levels g) n) 1 parts)%nat as Hone.
    { clear. induction parts; cbn [fold_right]; lia. }
    destruct (N.eqb_spec lvl 255); [lia|].
    inversion Hwf as [| | |? ? ? Hparts]; subst.
    match goal with |- context[read_n _ _ _ ?s0] => set (st2 := s0) end.
    destruct (read_parts_ok src parts IH b0 l st2 f f (lvl + 1)) as (st3 & nodes & E3 & Ht3 & Hs3 & HF);
      [assumption|exact Hparts|exact Ht2|subst st2; cbn [rs_size rs_pos]; lia|lia|lia|lia|lia|].
    rewrite E3. cbn [obind].
    eexists _, _. split; [reflexivity|]. split; [exact Ht3|].
    split; [subst st2; cbn in Hs3; lia|]. constructor; [|exact HF].
    constructor; cbn; try reflexivity. apply N.mod_small. lia.
Qed.

Lemma wkb_read_ok g b rest swap0 :
  wkb g b -> wf_geom g -> (levels g <= 256)%nat -> (N.of_nat (length b) < 2 ^ 35)%N ->
  exists nodes, wkb_read_from (b ++ rest) swap0 = Ok nodes /\ repr_geom (wkb_mem (b ++ rest)) 0 nodes g.
Proof.
  intros Hw Hwf Hlv Hlim. unfold wkb_read_from.
  destruct (read_geometry_ok (b ++ rest) g b rest
    {| rs_pos := 0; rs_size := Z.of_nat (length (b ++ rest)); rs_swap := swap0 |} (S (length (b ++ rest))) 0%N)
    as (st' & nodes & E & _ & _ & Hr); try assumption.
  - apply tail_at_0.
  - cbn. rewrite app_length. lia.
  - change (2 ^ 35) with (Z.of_N (2 ^ 35)). lia.
  - rewrite app_length. lia.
  - rewrite E. cbn [obind]. exists nodes. split; [reflexivity|exact Hr].
Qed.
