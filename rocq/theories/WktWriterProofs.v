From Verif Require Import Base BaseFacts Text GeomSpec GeomFacts VisitorModel VisitorSpec VisitorFacts BufferModel BufferFacts
  ArraySpec WkbWriterModel WkbWriterProofs WktSpec WktWriterModel.
Local Open Scope Z_scope.

Ltac strlen := change (length $" ") with 1%nat in *; change (length $", ") with 2%nat in *;
  change (length $"(") with 1%nat in *; change (length $")") with 1%nat in *; change (length $"EMPTY") with 5%nat in *.

(** ** Lists of texts *)

Lemma commas_cons t r : commas (t :: r) = t ++ flat_map (fun t => $", " ++ t) r.
Proof.
  revert t; induction r as [|u r IH]; intros t; [cbn; rewrite app_nil_r; reflexivity|].
  change (commas (t :: u :: r)) with (t ++ $", " ++ commas (u :: r)). rewrite IH. cbn [flat_map]. rewrite <- app_assoc. reflexivity.
Qed.
Lemma spaced_cons t r : spaced (t :: r) = t ++ flat_map (fun t => $" " ++ t) r.
Proof.
  revert t; induction r as [|u r IH]; intros t; [cbn; rewrite app_nil_r; reflexivity|].
  change (spaced (t :: u :: r)) with (t ++ $" " ++ spaced (u :: r)). rewrite IH. cbn [flat_map]. rewrite <- app_assoc. reflexivity.
Qed.

(** What a list of parts adds to a list that already has [x]. *)
Definition items (op : bytes) (x : Z) (ts : list bytes) : bytes :=
  match ts with [] => [] | t :: r => (if x =? 0 then op else $", ") ++ commas ts end.

Lemma items_app op x a b : 0 <= x -> items op x (a ++ b) = items op x a ++ items op (x + Z.of_nat (length a)) b.
Proof.
  intros Hx. destruct a as [|t a]; cbn [app items length]; [rewrite Z.add_0_r; reflexivity|].
  rewrite !commas_cons, flat_map_app, <- !app_assoc. do 3 f_equal. destruct b as [|u b]; [reflexivity|]. unfold items.
  destruct (Z.eqb_spec (x + Z.of_nat (S (length a))) 0); [lia|]. rewrite commas_cons. cbn [flat_map]. rewrite <- app_assoc. reflexivity.
Qed.

(** ** Outcomes of feeding events to the writer *)

Definition kdata (s : kst) : bytes := b_data (k_values s).

Record same_kbook (s s' : kst) : Prop := {
  kb_validity : k_validity s' = k_validity s;
  kb_offsets : k_offsets s' = k_offsets s;
  kb_length : k_length s' = k_length s;
  kb_nulls : k_nulls s' = k_nulls s;
  kb_start : k_start s' = k_start s;
  kb_is_null : k_is_null s' = k_is_null s
}.
Lemma same_kbook_refl s : same_kbook s s.
Proof. split; reflexivity. Qed.
Lemma same_kbook_trans a b c : same_kbook a b -> same_kbook b c -> same_kbook a c.
Proof. intros [] []. split; congruence. Qed.

Section Writer.
Variable print_double : N -> Z -> bytes.
Hypothesis print_short : forall w p, 0 <= p <= 16 -> (length (print_double w p) <= 40)%nat.
Variable cfg : kcfg.
Hypothesis precision_ok : 0 <= kc_precision cfg <= 16.

Notation print := (fun w => print_double w (kc_precision cfg)).
Notation step := (wkt_step print_double cfg).

(** The writer stopped with EAGAIN after a prefix of [txt] that reaches the limit. *)
Record stopped (s s' : kst) (txt : bytes) : Prop := {
  st_prefix : exists p q, txt = p ++ q /\ kdata s' = kdata s ++ p;
  st_book : same_kbook s s';
  st_ok : buf_ok (k_values s');
  st_limit : 0 <= kc_max cfg;
  st_full : exists st, k_start s = Some st /\ kc_max cfg <= b_size (k_values s') - st
}.

(** The writer can go on from here: [size <= capacity], and a feature has been started. *)
Definition ready (s : kst) : Prop := buf_ok (k_values s) /\ exists st, k_start s = Some st.

Definition goes (s : kst) (evs : list event) (txt : bytes) (Post : kst -> Prop) : Prop :=
  (exists s', feed step s evs = Some (s', 0) /\ Post s' /\ kdata s' = kdata s ++ txt /\ same_kbook s s' /\ ready s') \/
  (exists s', feed step s evs = Some (s', EAGAIN) /\ stopped s s' txt).

Lemma feed_app_again s s1 c a b : feed step s a = Some (s1, c) -> c <> 0 -> feed step s (a ++ b) = Some (s1, c).
Proof.
  revert s; induction a as [|e a IH]; intros s H Hc; cbn [feed app] in *; [congruence|].
  destruct (step s e) as [s' c'|]; [|discriminate]. destruct (c' =? 0); [apply IH; assumption|assumption].
Qed.

Lemma goes_bind s e1 t1 P e2 t2 Q :
  goes s e1 t1 P ->
  (forall s1, P s1 -> same_kbook s s1 -> ready s1 -> goes s1 e2 t2 Q) ->
  goes s (e1 ++ e2) (t1 ++ t2) Q.
Proof.
  intros [(s1 & F & HP & D & B & R)|(s1 & F & S)] H.
  - destruct (H s1 HP B R) as [(s2 & F2 & HQ & D2 & B2 & R2)|(s2 & F2 & [(p & q & T & Dp) B2 O2 M2 (st & E & Hst)])].
    + left. exists s2. rewrite (feed_app_ok _ _ _ _ _ F). repeat split; try assumption; try apply R2.
      1: rewrite D2, D, app_assoc; reflexivity.
      all: eapply same_kbook_trans; eassumption.
    + right. exists s2. rewrite (feed_app_ok _ _ _ _ _ F). split; [exact F2|]. split; try assumption.
      * exists (t1 ++ p), q. rewrite T, Dp, D, !app_assoc. auto.
      * eapply same_kbook_trans; eassumption.
      * exists st. rewrite <- (kb_start _ _ B). auto.
  - right. exists s1. split; [apply feed_app_again; [exact F|discriminate]|].
    destruct S as [(p & q & T & Dp) B2 O2 M2 Hst]. split; try assumption.
    exists p, (q ++ t2). rewrite T, app_assoc. auto.
Qed.

Lemma goes_weaken s evs txt (P Q : kst -> Prop) : goes s evs txt P -> (forall s', P s' -> Q s') -> goes s evs txt Q.
Proof. intros [(s1 & F & HP & R)|H] W; [left; exists s1; split; [exact F|split; [apply W; exact HP|exact R]]|right; exact H]. Qed.

Lemma goes_text s evs t1 t2 P : goes s evs t1 P -> t1 = t2 -> goes s evs t2 P.
Proof. intros H <-. exact H. Qed.

Lemma goes_nil s (P : kst -> Prop) : ready s -> P s -> goes s [] [] P.
Proof.
  intros R H. left. exists s. split; [reflexivity|]. split; [exact H|]. rewrite app_nil_r.
  split; [reflexivity|]. split; [apply same_kbook_refl|exact R].
Qed.

(** A single event that returns OK. *)
Lemma goes_one s e s' txt (P : kst -> Prop) : step s e = VRet s' 0 -> P s' -> kdata s' = kdata s ++ txt -> same_kbook s s' ->
  buf_ok (k_values s') -> ready s -> goes s [e] txt P.
Proof.
  intros E HP D B O [_ (st & Hst)]. left. exists s'. cbn [feed]. rewrite E. change (0 =? 0) with true. cbv iota.
  split; [reflexivity|]. split; [exact HP|]. split; [exact D|]. split; [exact B|]. split; [exact O|].
  exists st. rewrite (kb_start _ _ B). exact Hst.
Qed.

(** ** Coordinates *)

Lemma put_unsafe_ok b t : b_size b + Z.of_nat (length t) <= b_cap b ->
  put_unsafe b t = Some {| b_data := b_data b ++ t; b_cap := b_cap b |}.
Proof. intros H. unfold put_unsafe. destruct (Z.leb_spec (b_size b + Z.of_nat (length t)) (b_cap b)); [reflexivity|lia]. Qed.

Lemma put_double_ok b w : b_size b + 40 <= b_cap b ->
  put_double print_double cfg b w = Some {| b_data := b_data b ++ print w; b_cap := b_cap b |}.
Proof.
  intros H. unfold put_double. destruct (Z.leb_spec (b_size b + 40) (b_cap b)); [|lia]. apply put_unsafe_ok.
  pose proof (print_short w (kc_precision cfg) precision_ok). lia.
Qed.

Lemma put_ordinates_ok ws : forall b, b_size b + 41 * Z.of_nat (length ws) <= b_cap b ->
  exists b', put_ordinates print_double cfg b ws = Some b' /\ b_data b' = b_data b ++ flat_map (fun w => $" " ++ print w) ws /\
    b_cap b' = b_cap b.
Proof.
  induction ws as [|w ws IH]; intros b H; cbn [put_ordinates flat_map length] in *.
  - exists b. rewrite app_nil_r. auto.
  - rewrite put_unsafe_ok by (strlen; lia).
    rewrite put_double_ok by (unfold b_size in *; cbn [b_data b_cap]; rewrite app_length; strlen; lia).
    cbn [b_data b_cap].
    destruct (IH {| b_data := (b_data b ++ $" ") ++ print w; b_cap := b_cap b |}) as (b' & E & D & C).
    { unfold b_size in *; cbn [b_data b_cap]. rewrite !app_length. pose proof (print_short w (kc_precision cfg) precision_ok). strlen; lia. }
    exists b'. split; [exact E|]. rewrite D, C. cbn [b_data b_cap]. rewrite <- !app_assoc. auto.
Qed.

Lemma ordinates_length ws : (length (flat_map (fun w => $" " ++ print w) ws) <= 41 * length ws)%nat.
Proof.
  induction ws as [|w ws IH]; cbn [flat_map length]; [lia|]. rewrite !app_length.
  pose proof (print_short w (kc_precision cfg) precision_ok). strlen; lia.
Qed.

Lemma put_coord_ok nd b c : length c = nd -> (1 <= nd)%nat -> b_size b + 41 * Z.of_nat nd - 1 <= b_cap b ->
  exists b', put_coord print_double cfg (N.of_nat nd) b c = Some b' /\ b_data b' = b_data b ++ wkt_coord print c /\
    b_cap b' = b_cap b.
Proof.
  intros Hc Hn H. unfold put_coord. rewrite Hc, N.eqb_refl. destruct c as [|w ws]; cbn [length] in Hc; [lia|].
  rewrite put_double_ok by lia. unfold wkt_coord. cbn [map]. rewrite spaced_cons.
  destruct (put_ordinates_ok ws {| b_data := b_data b ++ print w; b_cap := b_cap b |}) as (b' & E & D & C).
  { unfold b_size in *; cbn [b_data b_cap]. rewrite app_length. pose proof (print_short w (kc_precision cfg) precision_ok). lia. }
  exists b'. split; [exact E|]. rewrite D, C. cbn [b_data b_cap]. rewrite <- app_assoc. split; [|reflexivity]. do 2 f_equal.
  clear. induction ws as [|v ws IH]; cbn [map flat_map]; [reflexivity|]. rewrite IH. reflexivity.
Qed.

Lemma coord_length c nd : length c = nd -> (1 <= nd)%nat -> (length (wkt_coord print c) <= 41 * nd - 1)%nat.
Proof.
  intros Hc Hn. unfold wkt_coord. destruct c as [|w ws]; cbn [length] in Hc; [lia|]. cbn [map]. rewrite spaced_cons, app_length.
  pose proof (print_short w (kc_precision cfg) precision_ok). pose proof (ordinates_length ws) as OL.
  assert (flat_map (fun t => $" " ++ t) (map print ws) = flat_map (fun w => $" " ++ print w) ws) as ->.
  { clear. induction ws as [|v ws IH]; cbn [map flat_map]; [reflexivity|]. rewrite IH. reflexivity. }
  lia.
Qed.

Lemma put_coords_ok nd theo st cs : Forall (fun c => length c = nd) cs -> (1 <= nd)%nat -> 41 * Z.of_nat nd + 1 <= theo ->
  forall b, buf_ok b ->
  exists b' all, put_coords print_double cfg (N.of_nat nd) theo (Some st) b cs = Some (b', all) /\ buf_ok b' /\
    (if all then b_data b' = b_data b ++ flat_map (fun c => $", " ++ wkt_coord print c) cs
     else (exists p q, flat_map (fun c => $", " ++ wkt_coord print c) cs = p ++ q /\ b_data b' = b_data b ++ p) /\
          0 <= kc_max cfg /\ kc_max cfg <= b_size b' - st).
Proof.
  intros Hcs Hn Ht. induction Hcs as [|c cs Hc Hcs IH]; intros b Hok; cbn [put_coords flat_map].
  - exists b, true. rewrite app_nil_r. auto.
  - set (b1 := buf_reserve b theo).
    assert (exists b' all,
      match put_unsafe b1 $", " with
      | Some b => match put_coord print_double cfg (N.of_nat nd) b c with
                  | Some b => put_coords print_double cfg (N.of_nat nd) theo (Some st) b cs | None => None end
      | None => None
      end = Some (b', all) /\ buf_ok b' /\
      (if all then b_data b' = b_data b ++ ($", " ++ wkt_coord print c) ++ flat_map (fun c => $", " ++ wkt_coord print c) cs
       else (exists p q, ($", " ++ wkt_coord print c) ++ flat_map (fun c => $", " ++ wkt_coord print c) cs = p ++ q /\
             b_data b' = b_data b ++ p) /\ 0 <= kc_max cfg /\ kc_max cfg <= b_size b' - st)) as W.
    { pose proof (buf_reserve_room b theo) as R. fold b1 in R.
      rewrite put_unsafe_ok by (strlen; lia).
      destruct (put_coord_ok nd {| b_data := b_data b1 ++ $", "; b_cap := b_cap b1 |} c Hc Hn) as (b2 & E2 & D2 & C2).
      { unfold b_size in *; cbn [b_data b_cap]. rewrite app_length. strlen. lia. }
      rewrite E2. cbn [b_data b_cap] in *.
      assert (buf_ok b2) as Ok2.
      { unfold buf_ok, b_size in *. rewrite D2, C2, !app_length. cbn [length].
        pose proof (coord_length c nd Hc Hn) as L.
        strlen; lia. }
      destruct (IH b2 Ok2) as (b' & all & E & Ok' & R').
      exists b', all. split; [exact E|]. split; [exact Ok'|].
      assert (b_data b2 = b_data b ++ $", " ++ wkt_coord print c) as D3.
      { rewrite D2. unfold b1. rewrite buf_reserve_data, <- app_assoc. reflexivity. }
      destruct all.
      - rewrite R', D3, <- !app_assoc. reflexivity.
      - destruct R' as ((p & q & T & D) & M & F). split; [|auto]. exists (($", " ++ wkt_coord print c) ++ p), q.
        rewrite T, D, D3, <- !app_assoc. auto. }
    destruct (Z.leb_spec 0 (kc_max cfg)); [|exact W].
    destruct (Z.leb_spec (kc_max cfg) (b_size b - st)); [|exact W].
    exists b, false. split; [reflexivity|]. split; [exact Hok|]. split; [|auto]. exists []. rewrite app_nil_r. eexists. split; reflexivity.
Qed.

(** ** Frames *)

(** [inside L gl par s]: the innermost open level is [L], of type [gl], and [par] tells whether its coordinates get parentheses. *)
Definition inside (L : Z) (gl : N) (par : bool) (s : kst) : Prop :=
  k_level s = L /\ aget (k_gt s) L = Some gl /\ parens cfg s = Some par.

(** [below L s s']: everything below level [L] is as before. *)
Definition below (L : Z) (s s' : kst) : Prop :=
  forall j, j < L -> aget (k_gt s') j = aget (k_gt s) j /\ aget (k_i s') j = aget (k_i s) j.
Lemma below_trans L a b c : below L a b -> below L b c -> below L a c.
Proof. intros H1 H2 j Hj. destruct (H1 j Hj), (H2 j Hj). split; congruence. Qed.
Lemma below_le L M a b : below L a b -> M <= L -> below M a b.
Proof. intros H Hm j Hj. apply H. lia. Qed.
Lemma below_refl L s : below L s s.
Proof. split; reflexivity. Qed.

(** Parts or coordinates added at level [L]: [n] of them. *)
Definition emits (L : Z) (gl : N) (par : bool) (evs : list event) (txt : Z -> bytes) (n : Z) : Prop :=
  forall s x, inside L gl par s -> aget (k_i s) L = Some x -> 0 <= x -> ready s ->
  goes s evs (txt x) (fun s' => inside L gl par s' /\ below L s s' /\ aget (k_i s') L = Some (x + n)).

Lemma emits_nil L gl par : emits L gl par [] (fun _ => []) 0.
Proof. intros s x Hin Hx Hp R. apply goes_nil; [exact R|]. split; [exact Hin|]. split; [apply below_refl|]. rewrite Z.add_0_r. exact Hx. Qed.

Lemma emits_app L gl par e1 t1 n1 e2 t2 n2 : 0 <= n1 -> emits L gl par e1 t1 n1 -> emits L gl par e2 t2 n2 ->
  emits L gl par (e1 ++ e2) (fun x => t1 x ++ t2 (x + n1)) (n1 + n2).
Proof.
  intros Hn H1 H2 s x Hin Hx Hp R. eapply goes_bind; [apply H1; assumption|]. cbv beta.
  intros s1 (In1 & B1 & X1) Bk R1. eapply goes_weaken; [apply H2; [exact In1|exact X1|lia|exact R1]|]. cbv beta.
  intros s2 (In2 & B2 & X2). split; [exact In2|]. split; [eapply below_trans; eassumption|]. rewrite X2. f_equal. lia.
Qed.

Lemma emits_text L gl par evs t1 t2 n : emits L gl par evs t1 n -> (forall x, 0 <= x -> t1 x = t2 x) -> emits L gl par evs t2 n.
Proof. intros H E s x Hin Hx Hp R. eapply goes_text; [apply H; assumption|apply E; exact Hp]. Qed.

Lemma check_kl s L : k_level s = L -> 0 <= L <= 31 -> wkt_check_level s = true.
Proof. intros <- H. unfold wkt_check_level. lia. Qed.

Definition opening (par : bool) : bytes := if par then $"(" else [].

Lemma emits_coords L gl par nd cs : 0 <= L <= 31 -> (1 <= nd)%nat -> Forall (fun c => length c = nd) cs ->
  emits L gl par [ECoords (N.of_nat nd) cs] (fun x => items (opening par) x (map (wkt_coord print) cs)) (Z.of_nat (length cs)).
Proof.
  intros HL Hn Hcs s x Hin Hx Hp R. destruct cs as [|c cs].
  - eapply goes_one with (s' := s); try reflexivity; try exact R; try apply R; try apply same_kbook_refl.
    + split; [exact Hin|]. split; [apply below_refl|]. cbn [length]. change (Z.of_nat 0) with 0. rewrite Z.add_0_r. exact Hx.
    + cbn. rewrite app_nil_r. reflexivity.
  - destruct Hin as (Hl & Hg & Hpar). destruct R as [Hok (st & Hst)]. inversion Hcs as [|? ? Hc Hcs']; subst.
    unfold goes. cbn [feed wkt_step]. unfold coords_wkt. rewrite (check_kl s (k_level s) eq_refl HL). cbn [negb].
    rewrite Hx. cbn [vor_ub].
    set (n := Z.of_nat (@length coord (@cons coord c cs))). set (nd := Z.of_N (N.of_nat (length c))).
    assert (nd = Z.of_nat (length c)) as End by (unfold nd; lia). assert (1 <= n) as H1 by (unfold n; cbn [length]; lia).
    cbv zeta. change (Z.of_nat (length (c :: cs))) with n. fold nd. set (theo := n * 2 + n * (nd - 1) + 40 * nd).
    assert (41 * Z.of_nat (length c) + 1 <= theo) as Ht by (unfold theo; rewrite End; nia).
    set (sep := if x =? 0 then opening par else $", ").
    assert ((if negb (x =? 0) then Some $", "
             else match parens cfg s with Some p => Some (if p then $"(" else []) | None => None end) = Some sep) as ->.
    { unfold sep, opening. rewrite Hpar. destruct (x =? 0); reflexivity. }
    cbn [vor_ub].
    set (b := buf_reserve (k_values s) _).
    assert (b_data b = kdata s /\ b_size b + 2 <= b_cap b) as [Db Rb].
    { unfold b. rewrite buf_reserve_data. split; [reflexivity|].
      match goal with |- b_size (buf_reserve _ ?e) + 2 <= _ => pose proof (buf_reserve_room (k_values s) e) end.
      assert (0 <= (kc_precision cfg + 1 + 8) * n * nd) by (apply Z.mul_nonneg_nonneg; [apply Z.mul_nonneg_nonneg|]; lia).
      assert (0 <= n * (nd - 1)) by (apply Z.mul_nonneg_nonneg; lia).
      lia. }
    assert (Z.of_nat (length sep) <= 2) as Ls by (unfold sep, opening; destruct (x =? 0), par; strlen; cbn [length]; lia).
    rewrite put_unsafe_ok by lia. cbn [vor_ub].
    set (b1 := buf_reserve {| b_data := b_data b ++ sep; b_cap := b_cap b |} theo).
    pose proof (buf_reserve_room {| b_data := b_data b ++ sep; b_cap := b_cap b |} theo) as R1. fold b1 in R1.
    destruct (put_coord_ok (length c) b1 c eq_refl Hn) as (b2 & E2 & D2 & C2); [lia|]. rewrite E2. cbn [vor_ub].
    assert (b_data b2 = kdata s ++ sep ++ wkt_coord print c) as D2'.
    { rewrite D2. unfold b1. rewrite buf_reserve_data. cbn [b_data]. rewrite Db, <- app_assoc. reflexivity. }
    assert (buf_ok b2) as Ok2.
    { unfold buf_ok. rewrite C2. unfold b_size. rewrite D2, app_length.
      pose proof (coord_length c (length c) eq_refl Hn). unfold b_size in R1. lia. }
    rewrite Hst.
    destruct (put_coords_ok (length c) theo st cs Hcs' Hn Ht b2 Ok2) as (b3 & all & E3 & Ok3 & R3). rewrite E3. cbn [vor_ub].
    assert (items (opening par) x (map (wkt_coord print) (c :: cs)) =
            sep ++ wkt_coord print c ++ flat_map (fun c => $", " ++ wkt_coord print c) cs) as Htxt.
    { cbn [items map]. rewrite commas_cons. unfold sep. do 2 f_equal.
      clear. induction cs as [|v cs IH]; cbn [map flat_map]; [reflexivity|]. rewrite IH. reflexivity. }
    destruct all; cbv iota.
    + destruct (aset_spec (k_i s) (k_level s) (x + n)) as (i & -> & Hi); [lia|]. cbn [vor_ub].
      change (0 =? 0) with true. cbv iota. left. eexists. split; [reflexivity|].
      split; [|split; [|split; [split; reflexivity|split; [exact Ok3|exists st; exact Hst]]]].
      * split; [split; [reflexivity|split; [exact Hg|exact Hpar]]|].
        split; [|cbn; rewrite Hi, Z.eqb_refl; reflexivity].
        intros j Hj. cbn. rewrite Hi. destruct (Z.eqb_spec j (k_level s)); [lia|]. auto.
      * unfold kdata at 1. cbn [kset_meta kset_values k_values]. rewrite R3, D2', Htxt, <- !app_assoc. reflexivity.
    + change (EAGAIN =? 0) with false. cbv iota. right. eexists. split; [reflexivity|].
      destruct R3 as ((p & q & T & D) & M & F). split; try assumption.
      * exists (sep ++ wkt_coord print c ++ p), q. rewrite Htxt, T, <- !app_assoc. split; [reflexivity|].
        unfold kdata at 1. cbn [kset_values k_values]. rewrite D, D2', <- !app_assoc. reflexivity.
      * split; reflexivity.
      * exists st. auto.
Qed.

Lemma seq_lengths d cs : wf_seq d cs -> Forall (fun c => length c = ndim d) cs.
Proof. intros H. eapply Forall_impl; [|exact H]. intros c [Hc _]. exact Hc. Qed.

Lemma emits_seq L gl par d cs evs : 0 <= L <= 31 -> wf_seq d cs -> seq_events d cs evs ->
  emits L gl par evs (fun x => items (opening par) x (map (wkt_coord print) cs)) (Z.of_nat (length cs)).
Proof.
  intros HL Hwf H. induction H as [|b cs evs H IH].
  - apply emits_nil.
  - apply Forall_app in Hwf as [Hb Hcs].
    assert (1 <= ndim d)%nat as Hd by (destruct d; cbn; lia).
    pose proof (emits_app L gl par _ _ _ _ _ _ (Nat2Z.is_nonneg _) (emits_coords L gl par (ndim d) b HL Hd (seq_lengths d b Hb)) (IH Hcs)) as E.
    rewrite app_length, Nat2Z.inj_add. eapply emits_text; [exact E|].
    intros x Hx. cbv beta. rewrite map_app, items_app, map_length by exact Hx. reflexivity.
Qed.

(** Everything from the first part of a (sub)geometry to its end. *)
Definition finishes (M : Z) (gl : N) (par : bool) (evs : list event) (txt : bytes) : Prop :=
  forall s, inside M gl par s -> aget (k_i s) M = Some 0 -> ready s ->
  goes s evs txt (fun s' => k_level s' = M - 1 /\ below M s s').

Definition closed (op : bytes) (par : bool) (ts : list bytes) : bytes :=
  match ts with [] => $"EMPTY" | _ => op ++ commas ts ++ if par then $")" else [] end.

Lemma kwrite_data s t : kdata (kwrite s t) = kdata s ++ t.
Proof. unfold kdata, kwrite. cbn. apply buf_append_data. Qed.
Lemma kwrite_ok s t : buf_ok (k_values (kwrite s t)).
Proof. apply buf_append_ok. Qed.
Lemma kwrite_book s t : same_kbook s (kwrite s t).
Proof. split; reflexivity. Qed.

Lemma finishes_geom M gl par evs op ts : 0 <= M <= 31 ->
  emits M gl par evs (fun x => items op x ts) (Z.of_nat (length ts)) ->
  finishes M gl par (evs ++ [EGeomEnd]) (closed op par ts).
Proof.
  intros HM H s Hin Hi R.
  assert (closed op par ts = items op 0 ts ++ match ts with [] => $"EMPTY" | _ => if par then $")" else [] end) as ->.
  { destruct ts as [|t ts]; [reflexivity|]. cbn [closed items]. change (0 =? 0) with true. cbv iota. rewrite <- app_assoc. reflexivity. }
  eapply goes_bind; [apply (H s 0); [assumption..|lia|assumption]|]. cbv beta. intros s1 ((L1 & G1 & P1) & B1 & X1) K1 R1.
  assert (exists s', step s1 EGeomEnd = VRet s' 0 /\ k_level s' = M - 1 /\ k_gt s' = k_gt s1 /\ k_i s' = k_i s1 /\
    kdata s' = kdata s1 ++ match ts with [] => $"EMPTY" | _ => if par then $")" else [] end /\ same_kbook s1 s' /\
    buf_ok (k_values s')) as (s' & E & L' & G' & I' & D' & K' & O').
  { cbn [wkt_step]. unfold geom_end_wkt. rewrite (check_kl s1 M L1 HM), L1, X1. cbn [negb vor_ub].
    destruct ts as [|t ts]; cbn [length].
    - change (0 + Z.of_nat 0 =? 0) with true. cbv iota. eexists. split; [reflexivity|].
      split; [reflexivity|]. split; [reflexivity|]. split; [reflexivity|]. split; [rewrite kwrite_data; reflexivity|].
      split; [split; reflexivity|apply kwrite_ok].
    - destruct (Z.eqb_spec (0 + Z.of_nat (S (length ts))) 0); [lia|]. rewrite P1. cbn [vor_ub].
      destruct par; eexists; (split; [reflexivity|]); (split; [reflexivity|]); (split; [reflexivity|]); (split; [reflexivity|]).
      + split; [rewrite kwrite_data; reflexivity|]. split; [split; reflexivity|apply kwrite_ok].
      + split; [rewrite app_nil_r; reflexivity|]. split; [split; reflexivity|]. apply R1. }
  eapply goes_one; try eassumption. split; [exact L'|]. intros j Hj. rewrite G', I'. apply B1. exact Hj.
Qed.

Lemma finishes_ring M gl evs ts : 0 <= M <= 31 ->
  emits M gl true evs (fun x => items $"(" x ts) (Z.of_nat (length ts)) ->
  finishes M gl true (evs ++ [ERingEnd]) (wkt_list ts).
Proof.
  intros HM H s Hin Hi R.
  assert (wkt_list ts = items $"(" 0 ts ++ match ts with [] => $"EMPTY" | _ => $")" end) as ->.
  { destruct ts as [|t ts]; [reflexivity|]. cbn [wkt_list items]. change (0 =? 0) with true. cbv iota. rewrite <- app_assoc. reflexivity. }
  eapply goes_bind; [apply (H s 0); [assumption..|lia|assumption]|]. cbv beta. intros s1 ((L1 & G1 & P1) & B1 & X1) K1 R1.
  assert (exists s', step s1 ERingEnd = VRet s' 0 /\ k_level s' = M - 1 /\ k_gt s' = k_gt s1 /\ k_i s' = k_i s1 /\
    kdata s' = kdata s1 ++ match ts with [] => $"EMPTY" | _ => $")" end /\ same_kbook s1 s' /\
    buf_ok (k_values s')) as (s' & E & L' & G' & I' & D' & K' & O').
  { cbn [wkt_step]. unfold ring_end_wkt. rewrite (check_kl s1 M L1 HM), L1, X1. cbn [negb vor_ub].
    destruct ts as [|t ts]; cbn [length].
    - change (0 + Z.of_nat 0 =? 0) with true. cbv iota. eexists. split; [reflexivity|].
      split; [reflexivity|]. split; [reflexivity|]. split; [reflexivity|]. split; [rewrite kwrite_data; reflexivity|].
      split; [split; reflexivity|apply kwrite_ok].
    - destruct (Z.eqb_spec (0 + Z.of_nat (S (length ts))) 0); [lia|]. eexists. split; [reflexivity|].
      split; [reflexivity|]. split; [reflexivity|]. split; [reflexivity|]. split; [rewrite kwrite_data; reflexivity|].
      split; [split; reflexivity|apply kwrite_ok]. }
  eapply goes_one; try eassumption. split; [exact L'|]. intros j Hj. rewrite G', I'. apply B1. exact Hj.
Qed.

Lemma finishes_text M gl par evs t1 t2 : finishes M gl par evs t1 -> t1 = t2 -> finishes M gl par evs t2.
Proof. intros H <-. exact H. Qed.

(** ** Opening a level *)

Definition par_in (gl : N) : bool := negb (kc_flat cfg && (gl =? 4)%N).

(** [opens L x s s' t]: [s'] is one level deeper, in a new part of type [t]. *)
Record opens (L x : Z) (t : N) (s s' : kst) : Prop := {
  op_level : k_level s' = L + 1;
  op_gt : aget (k_gt s') (L + 1) = Some t;
  op_i : aget (k_i s') (L + 1) = Some 0;
  op_parent_gt : aget (k_gt s') L = aget (k_gt s) L;
  op_parent_i : 0 <= L -> aget (k_i s') L = Some (x + 1);
  op_below : below L s s';
  op_book : same_kbook s s';
  op_values : k_values s' = k_values s
}.

Lemma open_level_ok s L x t : k_level s = L + 1 -> -1 <= L < 31 -> (0 <= L -> aget (k_i s) L = Some x) ->
  exists s', open_level s t = VRet s' 0 /\ opens L x t s s'.
Proof.
  intros Hl HL Hx. unfold open_level. rewrite Hl.
  assert (exists i, (if 0 <? L + 1 then match aget (k_i s) (L + 1 - 1) with Some x => aset (k_i s) (L + 1 - 1) (x + 1) | None => None end
                     else Some (k_i s)) = Some i /\
          (forall j, aget i j = if (j =? L) && (0 <=? L) then Some (x + 1) else aget (k_i s) j)) as (i & -> & Hi).
  { destruct (Z.ltb_spec 0 (L + 1)).
    - replace (L + 1 - 1) with L by lia. rewrite Hx by lia.
      destruct (aset_spec (k_i s) L (x + 1)) as (i & -> & Hi); [lia|]. exists i. split; [reflexivity|].
      intros j. rewrite Hi. destruct (Z.leb_spec 0 L); [|lia]. rewrite andb_true_r. reflexivity.
    - exists (k_i s). split; [reflexivity|]. intros j. destruct (Z.leb_spec 0 L); [lia|]. rewrite andb_false_r. reflexivity. }
  cbn [vor_ub].
  destruct (aset_spec (k_gt s) (L + 1) t) as (gt & -> & Hg); [lia|]. cbn [vor_ub].
  destruct (aset_spec i (L + 1) 0) as (i' & -> & Hi'); [lia|]. cbn [vor_ub].
  eexists. split; [reflexivity|]. split; cbn [kset_meta k_level k_gt k_i k_values].
  - exact Hl.
  - rewrite Hg, Z.eqb_refl. reflexivity.
  - rewrite Hi', Z.eqb_refl. reflexivity.
  - rewrite Hg. destruct (Z.eqb_spec L (L + 1)); [lia|]. reflexivity.
  - intros H0. rewrite Hi'. destruct (Z.eqb_spec L (L + 1)); [lia|]. rewrite Hi, Z.eqb_refl.
    destruct (Z.leb_spec 0 L); [reflexivity|lia].
  - intros j Hj. cbn [k_gt k_i]. rewrite Hg, Hi', Hi. destruct (Z.eqb_spec j (L + 1)); [lia|]. destruct (Z.eqb_spec j L); [lia|]. auto.
  - split; reflexivity.
  - reflexivity.
Qed.

Lemma parens_in s L gl : k_level s = L + 1 -> 0 <= L -> aget (k_gt s) L = Some gl -> parens cfg s = Some (par_in gl).
Proof.
  intros Hl HL Hg. unfold parens, par_in. rewrite Hl. destruct (Z.ltb_spec (L + 1) 1); [lia|]. cbn [orb].
  destruct (kc_flat cfg); cbn [negb andb]; [|reflexivity]. replace (L + 1 - 1) with L by lia. rewrite Hg. reflexivity.
Qed.

(** A part inside an open level. *)
Lemma emits_part L gl par t e evs hd body : 0 <= L < 31 ->
  (forall s x, inside L gl par s -> aget (k_i s) L = Some x -> 0 <= x -> ready s ->
     exists s', step s e = VRet s' 0 /\ kdata s' = kdata s ++ (if x =? 0 then $"(" else $", ") ++ hd /\ same_kbook s s' /\
       buf_ok (k_values s') /\ k_level s' = L + 1 /\ aget (k_gt s') (L + 1) = Some t /\ aget (k_i s') (L + 1) = Some 0 /\
       aget (k_gt s') L = Some gl /\ aget (k_i s') L = Some (x + 1) /\ below L s s') ->
  finishes (L + 1) t (par_in gl) evs body ->
  emits L gl par (e :: evs) (fun x => items $"(" x [hd ++ body]) 1.
Proof.
  intros HL Hstart Hfin s x Hin Hx Hp R.
  destruct (Hstart s x Hin Hx Hp R) as (s1 & E & D & K & O & L1 & G1 & I1 & PG & PI & B).
  change (e :: evs) with ([e] ++ evs).
  assert (items $"(" x [hd ++ body] = ((if x =? 0 then $"(" else $", ") ++ hd) ++ body) as ->.
  { cbn [items commas]. rewrite <- app_assoc. reflexivity. }
  eapply goes_bind with (P := fun s' => s' = s1).
  { eapply goes_one; try eassumption. reflexivity. }
  intros s2 -> K2 R2. destruct Hin as (Hl & Hg & Hpar).
  eapply goes_weaken; [apply Hfin; [|exact I1|exact R2]|].
  { split; [exact L1|]. split; [exact G1|]. eapply parens_in; [exact L1|lia|exact PG]. }
  cbv beta. intros s3 (L3 & B3). destruct (B3 L ltac:(lia)) as [BG BI].
  split; [|split].
  - split; [lia|]. split; [congruence|]. unfold parens in *. rewrite L3, Hl in *.
    replace (L + 1 - 1) with L by lia. destruct ((L <? 1) || negb (kc_flat cfg)); [exact Hpar|].
    destruct (B3 (L - 1) ltac:(lia)) as [BG' _]. destruct (B (L - 1) ltac:(lia)) as [BG'' _]. rewrite BG', BG''. exact Hpar.
  - eapply below_trans; [exact B|]. eapply below_le; [exact B3|lia].
  - congruence.
Qed.

Lemma ring_start_part L gl par s x : 0 <= L < 31 -> inside L gl par s -> aget (k_i s) L = Some x -> 0 <= x -> ready s ->
  exists s', step s ERingStart = VRet s' 0 /\ kdata s' = kdata s ++ (if x =? 0 then $"(" else $", ") ++ [] /\ same_kbook s s' /\
    buf_ok (k_values s') /\ k_level s' = L + 1 /\ aget (k_gt s') (L + 1) = Some 0%N /\ aget (k_i s') (L + 1) = Some 0 /\
    aget (k_gt s') L = Some gl /\ aget (k_i s') L = Some (x + 1) /\ below L s s'.
Proof.
  intros HL (Hl & Hg & Hpar) Hx Hp R. cbn [wkt_step]. unfold ring_start_wkt. rewrite Hl. cbn [kset_level k_level k_i].
  change (wkt_check_level _) with ((0 <=? L + 1) && (L + 1 <=? 31)).
  destruct (Z.leb_spec 0 (L + 1)); [|lia]. destruct (Z.leb_spec (L + 1) 31); [|lia]. cbn [andb negb].
  destruct (Z.ltb_spec 0 (L + 1)); [|lia]. replace (L + 1 - 1) with L by lia. rewrite Hx. cbn [vor_ub].
  set (s0 := if 0 <? x then _ else _).
  assert (s0 = kwrite (kset_level s (L + 1)) (if x =? 0 then $"(" else $", ")) as Es0.
  { unfold s0. destruct (Z.ltb_spec 0 x), (Z.eqb_spec x 0); try lia; reflexivity. }
  destruct (open_level_ok s0 L x 0%N) as (s' & E & [OL OG OI OPG OPI OB OK OV]).
  { rewrite Es0. reflexivity. } { lia. } { intros _. rewrite Es0. exact Hx. }
  exists s'. split; [exact E|]. rewrite app_nil_r.
  split; [change (b_data (k_values s') = kdata s ++ (if x =? 0 then $"(" else $", ")); rewrite OV, Es0; exact (kwrite_data _ _)|].
  split; [rewrite Es0 in OK; destruct OK; split; assumption|]. split; [rewrite OV, Es0; apply kwrite_ok|].
  split; [exact OL|]. split; [exact OG|]. split; [exact OI|]. split; [rewrite OPG, Es0; exact Hg|].
  split; [apply OPI; lia|]. rewrite Es0 in OB. exact OB.
Qed.

Lemma dim_tag d : dimensions_tag (dimN d) = Some (wkt_dim d).
Proof. destruct d; reflexivity. Qed.
Lemma type_tag g : geometry_type_string (geom_code g) = wkt_tag g.
Proof. destruct g as [| | |[] ? ?]; reflexivity. Qed.
Lemma code_range g : ((geom_code g <? 1) || (7 <? geom_code g))%N = false.
Proof. destruct g as [| | |[] ? ?]; reflexivity. Qed.

(** The tag written in a parent of type [gl]. *)
Definition tag_in (gl : N) (g : geom) : bytes :=
  if (gl =? 7)%N then wkt_tag g ++ wkt_dim (geom_dim g) ++ $" " else [].

Lemma geom_start_part L gl par g s x : 0 <= L < 31 -> inside L gl par s -> aget (k_i s) L = Some x -> 0 <= x -> ready s ->
  exists s', step s (EGeomStart (geom_code g) (dimN (geom_dim g))) = VRet s' 0 /\
    kdata s' = kdata s ++ (if x =? 0 then $"(" else $", ") ++ tag_in gl g /\ same_kbook s s' /\
    buf_ok (k_values s') /\ k_level s' = L + 1 /\ aget (k_gt s') (L + 1) = Some (geom_code g) /\ aget (k_i s') (L + 1) = Some 0 /\
    aget (k_gt s') L = Some gl /\ aget (k_i s') L = Some (x + 1) /\ below L s s'.
Proof.
  intros HL (Hl & Hg & Hpar) Hx Hp R. cbn [wkt_step]. unfold geom_start_wkt. rewrite Hl. cbn [kset_level k_level k_i].
  change (wkt_check_level _) with ((0 <=? L + 1) && (L + 1 <=? 31)).
  destruct (Z.leb_spec 0 (L + 1)); [|lia]. destruct (Z.leb_spec (L + 1) 31); [|lia]. cbn [andb negb].
  destruct (Z.ltb_spec 0 (L + 1)); [|lia]. replace (L + 1 - 1) with L by lia. rewrite Hx. cbn [vor_ub].
  set (s0 := if 0 <? x then _ else _).
  assert (s0 = kwrite (kset_level s (L + 1)) (if x =? 0 then $"(" else $", ")) as Es0.
  { unfold s0. destruct (Z.ltb_spec 0 x), (Z.eqb_spec x 0); try lia; reflexivity. }
  destruct (Z.eqb_spec (L + 1) 0); [lia|].
  assert (aget (k_gt s0) L = Some gl) as -> by (rewrite Es0; exact Hg). cbn [vor_ub]. rewrite code_range, dim_tag, type_tag.
  set (s1 := if (gl =? 7)%N then kwrite (kwrite (kwrite s0 (wkt_tag g)) (wkt_dim (geom_dim g))) $" " else s0).
  assert ((if (gl =? 7)%N
           then if false then VRet s0 EINVAL else open_level (kwrite (kwrite (kwrite s0 (wkt_tag g)) (wkt_dim (geom_dim g))) $" ") (geom_code g)
           else open_level s0 (geom_code g)) = open_level s1 (geom_code g)) as Eop by (unfold s1; destruct (gl =? 7)%N; reflexivity).
  cbv iota in Eop |- *. rewrite Eop.
  assert (kdata s1 = kdata s ++ (if x =? 0 then $"(" else $", ") ++ tag_in gl g /\ buf_ok (k_values s1) /\ k_gt s1 = k_gt s /\ k_i s1 = k_i s /\
          k_level s1 = L + 1 /\ same_kbook s s1) as (D1 & O1 & G1 & I1 & L1 & K1).
  { unfold s1, tag_in. rewrite Es0. destruct (gl =? 7)%N.
    - rewrite !kwrite_data, <- !app_assoc. split; [reflexivity|]. split; [apply kwrite_ok|]. repeat split; reflexivity.
    - rewrite kwrite_data, app_nil_r. split; [reflexivity|]. split; [apply kwrite_ok|]. repeat split; reflexivity. }
  destruct (open_level_ok s1 L x (geom_code g)) as (s' & E & [OL OG OI OPG OPI OB OK OV]).
  { exact L1. } { lia. } { intros _. rewrite I1. exact Hx. }
  exists s'. split; [exact E|]. unfold kdata at 1. rewrite OV.
  split; [exact D1|]. split; [eapply same_kbook_trans; eassumption|]. split; [exact O1|].
  split; [exact OL|]. split; [exact OG|]. split; [exact OI|]. split; [rewrite OPG, G1; exact Hg|].
  split; [apply OPI; lia|]. intros j Hj. destruct (OB j Hj) as [A B]. rewrite A, B, G1, I1. auto.
Qed.

Lemma geom_start_root g s : k_level s = -1 -> ready s ->
  exists s', step s (EGeomStart (geom_code g) (dimN (geom_dim g))) = VRet s' 0 /\
    kdata s' = kdata s ++ wkt_tag g ++ wkt_dim (geom_dim g) ++ $" " /\ same_kbook s s' /\
    buf_ok (k_values s') /\ inside 0 (geom_code g) true s' /\ aget (k_i s') 0 = Some 0.
Proof.
  intros Hl R. cbn [wkt_step]. unfold geom_start_wkt. rewrite Hl. cbn [kset_level k_level k_i].
  change (wkt_check_level _) with true. cbn [negb]. change (0 <? -1 + 1) with false. cbn [vor_ub].
  change (-1 + 1 =? 0) with true. cbv iota. cbn [vor_ub]. rewrite code_range, dim_tag, type_tag. cbv iota.
  destruct (open_level_ok (kwrite (kwrite (kwrite (kset_level s (-1 + 1)) (wkt_tag g)) (wkt_dim (geom_dim g))) $" ") (-1) 0 (geom_code g))
    as (s' & E & [OL OG OI OPG OPI OB OK OV]).
  { reflexivity. } { lia. } { lia. }
  exists s'. split; [exact E|]. split; [unfold kdata at 1; rewrite OV; change (b_data (k_values ?x)) with (kdata x); rewrite !kwrite_data, <- !app_assoc; reflexivity|].
  split; [eapply same_kbook_trans; [|exact OK]; split; reflexivity|].
  split; [rewrite OV; apply kwrite_ok|]. split; [|exact OI]. split; [exact OL|]. split; [exact OG|].
  unfold parens. rewrite OL. reflexivity.
Qed.

(** ** Geometries *)

Lemma emits_rings L par d rings evs : 0 <= L -> (rings <> [] -> L < 31) -> L <= 31 -> Forall (wf_seq d) rings -> ring_events d rings evs ->
  emits L 3 par evs (fun x => items $"(" x (map (wkt_seq print) rings)) (Z.of_nat (length rings)).
Proof.
  intros HL0 HL HL1 Hwf H. induction H as [|cs rings e1 e2 H1 H2 IH].
  - apply emits_nil.
  - inversion Hwf as [|? ? Hc Hr]; subst. specialize (HL ltac:(discriminate)).
    assert (emits L 3 par (ERingStart :: e1 ++ [ERingEnd]) (fun x => items $"(" x [[] ++ wkt_seq print cs]) 1) as E1.
    { apply emits_part with (t := 0%N).
      - lia.
      - intros s x Hin Hx Hp R. apply (ring_start_part L 3 par); try assumption; lia.
      - assert (par_in 3 = true) as -> by (unfold par_in; cbn; rewrite andb_false_r; reflexivity).
        unfold wkt_seq. apply finishes_ring; [lia|]. rewrite map_length. apply (emits_seq _ _ true d); [lia|exact Hc|exact H1]. }
    pose proof (emits_app L 3 par _ _ _ _ _ _ Z.le_0_1 E1 (IH ltac:(intros; lia) Hr)) as E.
    replace (ERingStart :: e1 ++ [ERingEnd] ++ e2) with ((ERingStart :: e1 ++ [ERingEnd]) ++ e2)
      by (cbn [app]; rewrite <- app_assoc; reflexivity).
    replace (Z.of_nat (length (cs :: rings))) with (1 + Z.of_nat (length rings)) by (cbn [length]; lia).
    eapply emits_text; [exact E|]. intros x Hx. cbv beta. cbn [map app].
    rewrite (items_app _ _ [wkt_seq print cs] (map (wkt_seq print) rings) Hx : items _ x (_ :: _) = _). reflexivity.
Qed.

(** The text of a body whose parentheses may be missing. *)
Definition body_in (par : bool) (g : geom) : bytes :=
  match g with
  | GPoint _ cs => if par then wkt_seq print cs else wkt_bare print cs
  | _ => wkt_body print (kc_flat cfg) g
  end.

Definition part_text (k : coll) (g : geom) : bytes :=
  match k, g with
  | CCollection, _ => wkt print (kc_flat cfg) g
  | CMultipoint, GPoint _ cs => if kc_flat cfg then wkt_bare print cs else wkt_seq print cs
  | _, _ => wkt_body print (kc_flat cfg) g
  end.
Lemma wkt_body_coll k d parts : wkt_body print (kc_flat cfg) (GColl k d parts) = wkt_list (map (part_text k) parts).
Proof. reflexivity. Qed.

Lemma part_text_in k g : member_of k g -> tag_in (coll_code k) g ++ body_in (par_in (coll_code k)) g = part_text k g.
Proof.
  intros Hm. destruct k, g; try contradiction; cbn [coll_code tag_in body_in part_text]; unfold tag_in, par_in;
    change (4 =? 4)%N with true; change (4 =? 7)%N with false; change (5 =? 7)%N with false; change (6 =? 7)%N with false;
    change (7 =? 7)%N with true; change (5 =? 4)%N with false; change (6 =? 4)%N with false; change (7 =? 4)%N with false;
    rewrite ?andb_true_r, ?andb_false_r; cbn [negb app]; try reflexivity.
  all: try (destruct (kc_flat cfg); reflexivity).
  all: unfold wkt; rewrite <- !app_assoc; reflexivity.
Qed.

Lemma geom_events_split g evs : geom_events g evs ->
  exists e, evs = EGeomStart (geom_code g) (dimN (geom_dim g)) :: e.
Proof. intros H. destruct H; cbn [app geom_code geom_dim]; eauto. Qed.

Lemma body_ok g : typed g -> wf_geom g -> forall M par e, 0 <= M -> M + Z.of_nat (nesting g) <= 32 ->
  (par = true \/ exists d cs, g = GPoint d cs) ->
  geom_events g (EGeomStart (geom_code g) (dimN (geom_dim g)) :: e) ->
  finishes M (geom_code g) par e (body_in par g).
Proof.
  induction g as [d cs|d cs|d rings|k d parts IH] using geom_ind'; intros Hty Hwf M par e HM Hn Hpar H; cbn [geom_code geom_dim body_in] in *.
  - inversion H as [? ? e' He' Eq1 Eq2| | |]; subst. inversion Hwf; subst. cbn [nesting] in Hn.
    eapply finishes_text; [apply finishes_geom with (op := opening par) (ts := map (wkt_coord print) cs); [lia|]|].
    + rewrite map_length. apply (emits_seq _ _ _ d); [lia|assumption|assumption].
    + unfold closed, opening, wkt_seq, wkt_bare, wkt_list. destruct cs as [|c cs]; destruct par; cbn [map]; try reflexivity.
      rewrite app_nil_r. reflexivity.
  - destruct Hpar as [->|(? & ? & ?)]; [|discriminate]. inversion H as [|? ? e' He' Eq1 Eq2| |]; subst. inversion Hwf; subst. cbn [nesting] in Hn.
    eapply finishes_text; [apply finishes_geom with (op := opening true) (ts := map (wkt_coord print) cs); [lia|]|].
    + rewrite map_length. apply (emits_seq _ _ _ d); [lia|assumption|assumption].
    + cbn [wkt_body]. unfold closed, opening, wkt_seq, wkt_list. destruct cs as [|c cs]; reflexivity.
  - destruct Hpar as [->|(? & ? & ?)]; [|discriminate]. inversion H as [| |? ? e' He' Eq1 Eq2|]; subst. inversion Hwf; subst.
    eapply finishes_text;
      [apply finishes_geom with (op := $"(") (ts := map (wkt_seq print) rings); [destruct rings; cbn [nesting] in Hn; lia|]|].
    + rewrite map_length. apply (emits_rings _ _ d); try assumption; [|destruct rings; cbn [nesting] in Hn; lia].
      intros Hr. destruct rings; [congruence|]. cbn [nesting] in Hn. lia.
    + cbn [wkt_body]. unfold closed, wkt_list. destruct rings as [|c rings]; reflexivity.
  - destruct Hpar as [->|(? & ? & ?)]; [|discriminate]. inversion H as [| | |? ? ? e' He' Eq1 Eq2]; subst.
    rewrite wkt_body_coll. rewrite nesting_coll in Hn.
    inversion Hwf as [| | |? ? ? Hwfs]; subst. apply wf_geoms_Forall in Hwfs. inversion Hty as [| | |? ? ? Hmem Htys]; subst.
    eapply finishes_text;
      [apply finishes_geom with (op := $"(") (ts := map (part_text k) parts); [lia|]|];
      [|unfold closed, wkt_list; destruct (map (part_text k) parts); reflexivity].
    rewrite map_length. clear H Hty Hwf. revert e' He' Hn.
    induction parts as [|g gs IHgs]; intros e' He' Hn; inversion He' as [|? ? e1 e2 H1 H2]; subst.
    + apply emits_nil.
    + inversion IH as [|? ? Hg Hgs]; subst. inversion Hwfs; subst. inversion Hmem; subst. inversion Htys; subst.
      rewrite nestings_cons in Hn. pose proof (nesting_pos g).
      assert (emits M (coll_code k) true e1 (fun x => items $"(" x [part_text k g]) 1) as E1.
      { destruct (geom_events_split g e1 H1) as (e & ->). rewrite <- (part_text_in k g) by assumption.
        apply emits_part with (t := geom_code g).
        - lia.
        - intros s x Hin Hx Hp R. apply (geom_start_part M (coll_code k) true); try assumption; lia.
        - apply Hg; try assumption; try lia.
          destruct (par_in (coll_code k)) eqn:Ep; [left; reflexivity|right].
          unfold par_in in Ep. apply negb_false_iff, andb_true_iff in Ep as [_ Ep]. apply N.eqb_eq in Ep.
          destruct k; try discriminate. destruct g; try contradiction. eauto. }
      pose proof (emits_app M _ true _ _ _ _ _ _ Z.le_0_1 E1
        (IHgs Hgs ltac:(assumption) ltac:(assumption) ltac:(assumption) e2 H2 ltac:(lia))) as E.
      replace (Z.of_nat (length (g :: gs))) with (1 + Z.of_nat (length gs)) by (cbn [length]; lia).
      eapply emits_text; [exact E|]. intros x Hx. cbv beta. cbn [map].
      change (part_text k g :: map (part_text k) gs) with ([part_text k g] ++ map (part_text k) gs).
      rewrite items_app by exact Hx. reflexivity.
Qed.

Lemma root_ok g evs s : typed g -> wf_geom g -> (nesting g <= 32)%nat -> geom_events g evs -> k_level s = -1 -> ready s ->
  goes s evs (wkt print (kc_flat cfg) g) (fun _ => True).
Proof.
  intros Hty Hwf Hn H Hl R. destruct (geom_events_split g evs H) as (e & ->).
  destruct (geom_start_root g s Hl R) as (s1 & E & D & K & O & In1 & I1).
  change (?h :: e) with ([h] ++ e).
  assert (wkt print (kc_flat cfg) g = (wkt_tag g ++ wkt_dim (geom_dim g) ++ $" ") ++ body_in true g) as ->.
  { unfold wkt. rewrite <- !app_assoc. destruct g; reflexivity. }
  eapply goes_bind with (P := fun s' => s' = s1).
  { eapply goes_one; try eassumption. reflexivity. }
  intros s2 -> K2 R2. eapply goes_weaken; [|intros; exact I].
  apply (body_ok g Hty Hwf 0 true e); try assumption; [lia|lia|left; reflexivity].
Qed.
End Writer.
