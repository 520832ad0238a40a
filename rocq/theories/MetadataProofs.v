(** * Proofs about extension metadata: reading *)
From Verif Require Import Base Text MetadataModel MetadataSpec.
Local Open Scope Z_scope.

(** ** Small facts *)
Lemma same_eq a b : same a b = true <-> a = b.
Proof. unfold same. destruct (list_eq_dec N.eq_dec a b); intuition congruence. Qed.
Lemma same_refl a : same a a = true.
Proof. apply same_eq. reflexivity. Qed.
Lemma same_neq a b : a <> b -> same a b = false.
Proof. intros H. destruct (same a b) eqn:E; [apply same_eq in E; contradiction | reflexivity]. Qed.
Lemma same_bytes_same a : forall b, same_bytes a b = same a b.
Proof.
  induction a as [|x a IH]; intros [|y b]; cbn [same_bytes].
  - symmetry. apply same_refl.
  - symmetry. apply same_neq. discriminate.
  - symmetry. apply same_neq. discriminate.
  - rewrite IH. destruct (N.eqb_spec x y) as [<-|Hn]; cbn [andb].
    + destruct (same a b) eqn:E.
      * apply same_eq in E. subst. symmetry. apply same_refl.
      * symmetry. apply same_neq. intros [= ->]. rewrite same_refl in E. discriminate.
    + symmetry. apply same_neq. intros [= ? ?]. contradiction.
Qed.
Lemma first_is_starts v c : first_is v c = starts c v.
Proof. reflexivity. Qed.

Lemma skip_blank w s : blank w -> skip_whitespace (w ++ s) = skip_whitespace s.
Proof.
  induction 1 as [|c w Hc Hw IH]; [reflexivity|].
  cbn [app skip_whitespace].
  replace ((c =? 32) || (c =? 9) || (c =? 10) || (c =? 13))%N with true; [exact IH|].
  cbn in Hc. destruct Hc as [<-|[<-|[<-|[<-|[]]]]]; reflexivity.
Qed.
Lemma skip_blank_end w : blank w -> skip_whitespace w = [].
Proof. intros H. rewrite <- (app_nil_r w), skip_blank by exact H. reflexivity. Qed.
Lemma skip_split s : exists w, blank w /\ s = w ++ skip_whitespace s.
Proof.
  induction s as [|c s IH]; [exists []; split; [constructor | reflexivity]|].
  cbn [skip_whitespace].
  destruct ((c =? 32) || (c =? 9) || (c =? 10) || (c =? 13))%N eqn:E.
  - destruct IH as (w & Hw & Es). exists (c :: w). split.
    + constructor; [|exact Hw]. cbn.
      apply orb_prop in E as [E|E]; [apply orb_prop in E as [E|E]; [apply orb_prop in E as [E|E]|]|];
        apply N.eqb_eq in E; subst; auto.
    + cbn [app]. f_equal. exact Es.
  - exists []. split; [constructor | reflexivity].
Qed.
(** What does not begin with a blank is not skipped. *)
Lemma skip_none c s : (c =? 32)%N = false -> (c =? 9)%N = false -> (c =? 10)%N = false -> (c =? 13)%N = false ->
  skip_whitespace (c :: s) = c :: s.
Proof. intros H1 H2 H3 H4. cbn [skip_whitespace]. rewrite H1, H2, H3, H4. reflexivity. Qed.

Lemma up_to_app v r : up_to (v ++ r) r = v.
Proof. unfold up_to. rewrite app_length. replace (length v + length r - length r)%nat with (length v) by lia.
  rewrite firstn_app, Nat.sub_diag, firstn_all, firstn_O, app_nil_r. reflexivity.
Qed.

(** ** Strings *)
Lemma string_loop_chars s r : chars s -> string_loop false (s ++ 34%N :: r) = Ok r.
Proof.
  induction 1 as [|c s Hq Hb _ IH|c s _ IH]; cbn [app string_loop negb andb].
  - reflexivity.
  - rewrite (proj2 (N.eqb_neq c backslash) Hb), (proj2 (N.eqb_neq c quote) Hq). exact IH.
  - change ((92 =? backslash)%N) with true. cbv iota. exact IH.
Qed.
Lemma string_loop_ok : forall s r, (string_loop false s = Ok r -> exists t, chars t /\ s = t ++ 34%N :: r) /\
  (string_loop true s = Ok r -> exists c t, chars t /\ s = c :: t ++ 34%N :: r).
Proof.
  induction s as [|c s IH]; intros r; [split; intros [=]|].
  cbn [string_loop negb andb]. split.
  - destruct (N.eqb_spec c backslash) as [->|Hb].
    + intros H. apply IH in H as (x & t & Ht & ->). exists (92%N :: x :: t). split; [constructor; exact Ht | reflexivity].
    + destruct (N.eqb_spec c quote) as [->|Hq].
      * intros [= ->]. exists []. split; [constructor | reflexivity].
      * intros H. apply IH in H as (t & Ht & ->). exists (c :: t). split; [constructor; assumption | reflexivity].
  - intros H. apply IH in H as (t & Ht & ->). exists c, t. split; [exact Ht | reflexivity].
Qed.
Lemma string_loop_cases s : forall e, (exists r, string_loop e s = Ok r /\ (length r < length s)%nat) \/ string_loop e s = Err EINVAL.
Proof.
  induction s as [|c s IH]; intros e; [right; reflexivity|].
  cbn [string_loop length].
  destruct (negb e && (c =? backslash)%N); [|destruct (negb e && (c =? quote)%N)].
  - destruct (IH true) as [(r & E & L)|E]; [left; exists r; split; [exact E | lia] | right; exact E].
  - left. exists s. split; [reflexivity | lia].
  - destruct (IH false) as [(r & E & L)|E]; [left; exists r; split; [exact E | lia] | right; exact E].
Qed.

Section Past.
  Variable past : option N.

  Lemma find_string_text t r : json_string t -> find_string past (t ++ r) = Ok (t, r).
  Proof.
    intros (s & Hs & ->). unfold find_string, quoted. cbn [app peek obind tl].
    change ((34 =? quote)%N) with true. cbv iota.
    rewrite <- !app_assoc. cbn [app].
    rewrite string_loop_chars by exact Hs. cbn [obind]. f_equal. f_equal.
    change (34%N :: s ++ 34%N :: r) with (([34%N] ++ s) ++ [34%N] ++ r). rewrite app_assoc, up_to_app.
    reflexivity.
  Qed.
  Lemma find_string_ok s v r : find_string past s = Ok (v, r) -> json_string v /\ s = v ++ r.
  Proof.
    unfold find_string. destruct s as [|c s].
    - cbn [peek]. destruct past as [p|]; cbn [obind]; [|discriminate].
      destruct (p =? quote)%N; discriminate.
    - cbn [peek obind tl]. destruct (N.eqb_spec c quote) as [->|]; [|discriminate].
      destruct (string_loop false s) as [r'| | |] eqn:E; cbn [obind]; try discriminate.
      intros [= <- <-]. apply string_loop_ok in E as (t & Ht & ->).
      assert (J : json_string (quoted t)) by (exists t; split; [exact Ht | reflexivity]).
      replace (quote :: t ++ 34%N :: r') with (quoted t ++ r')
        by (unfold quoted; cbn [app]; rewrite <- app_assoc; reflexivity).
      rewrite up_to_app. split; [exact J | reflexivity].
  Qed.

  (** ** Arrays and objects *)
  Lemma skip_until_skip items c s : c <> 0%N -> existsb (N.eqb c) items = false -> skip_until items (c :: s) = skip_until items s.
  Proof. intros H0 H. cbn [skip_until]. rewrite (proj2 (N.eqb_neq c 0) H0), H. reflexivity. Qed.

  Lemma existsb_not_in c items : ~ In c items -> existsb (N.eqb c) items = false.
  Proof.
    intros H. destruct (existsb (N.eqb c) items) eqn:E; [|reflexivity].
    apply existsb_exists in E as (x & Hx & E). apply N.eqb_eq in E. subst. contradiction.
  Qed.

  Lemma nested_loop_skip fuel close c s : ~ In c [0; 34; 91; 123; close]%N -> s <> [] ->
    nested_loop past (S fuel) close (c :: s) = nested_loop past (S fuel) close s.
  Proof.
    intros Hc Hs. cbn [nested_loop].
    rewrite skip_until_skip.
    - destruct s; [congruence | reflexivity].
    - intros ->. apply Hc. cbn. auto.
    - apply existsb_not_in. intros H. apply Hc. cbn in H |- *.
      unfold list_open, object_open, quote in H. intuition.
  Qed.

  Lemma nested_loop_string fuel close t s : json_string t ->
    nested_loop past (S fuel) close (t ++ s) = nested_loop past fuel close s.
  Proof.
    intros Ht. pose proof (find_string_text t s Ht) as E. destruct Ht as (x & Hx & ->).
    unfold quoted in E |- *. cbn [app] in E |- *. cbn [nested_loop skip_until].
    change ((34 =? 0)%N) with false. cbv iota.
    change (existsb (N.eqb 34) [list_open; object_open; quote; close]) with true. cbv iota.
    cbn [peek obind]. change ((34 =? quote)%N) with true. cbv iota.
    rewrite E. reflexivity.
  Qed.
  Lemma nested_loop_close fuel close s : In close [93; 125]%N -> nested_loop past (S fuel) close (close :: s) = Ok s.
  Proof. intros [<-|[<-|[]]]; reflexivity. Qed.
  Lemma nested_loop_open fuel close o c s : In (o, c) [(91, 93); (123, 125)]%N ->
    nested_loop past (S fuel) close (o :: s) = do s <- nested_loop past fuel c s; nested_loop past fuel close s.
  Proof. intros [[= <- <-]|[[= <- <-]|[]]]; reflexivity. Qed.

  Lemma nested_loop_span close i : span close i -> forall fuel r, In close [93; 125]%N -> (length i < fuel)%nat ->
    nested_loop past fuel close (i ++ close :: r) = Ok r.
  Proof.
    induction 1 as [close|close c s Hc _ IH|close t s Ht _ IH|close i s _ IHi _ IH|close i s _ IHi _ IH]; intros fuel r Hcl Hf;
      (destruct fuel as [|fuel]; [lia|]); cbn [app length] in *.
    - apply nested_loop_close. exact Hcl.
    - rewrite nested_loop_skip; [apply IH; [exact Hcl | lia] | exact Hc | destruct s; discriminate].
    - rewrite app_length in Hf. rewrite <- app_assoc, nested_loop_string by exact Ht.
      apply IH; [exact Hcl|]. destruct Ht as (x & _ & ->). cbn in Hf. lia.
    - rewrite !app_length in Hf. cbn [length] in Hf.
      rewrite (nested_loop_open fuel close 91 93) by (left; reflexivity).
      rewrite <- app_assoc. cbn [app]. rewrite IHi by (cbn; auto || lia). cbn [obind]. apply IH; [exact Hcl | lia].
    - rewrite !app_length in Hf. cbn [length] in Hf.
      rewrite (nested_loop_open fuel close 123 125) by (right; left; reflexivity).
      rewrite <- app_assoc. cbn [app]. rewrite IHi by (cbn; auto || lia). cbn [obind]. apply IH; [exact Hcl | lia].
  Qed.

  Lemma skip_until_found items s : let '(f, r) := skip_until items s in
    exists j, Forall (fun c => c <> 0%N /\ ~ In c items) j /\ s = j ++ r /\
      if f then (exists c r', r = c :: r' /\ In c items) else r = [] \/ exists r', r = 0%N :: r'.
  Proof.
    induction s as [|c s IH]; cbn [skip_until].
    - exists []. repeat split; [constructor | left; reflexivity].
    - destruct (N.eqb_spec c 0) as [->|H0].
      + exists []. repeat split; [constructor | right; exists s; reflexivity].
      + destruct (existsb (N.eqb c) items) eqn:E.
        * exists []. repeat split; [constructor|]. exists c, s. split; [reflexivity|].
          apply existsb_exists in E as (x & Hx & E). apply N.eqb_eq in E. subst. exact Hx.
        * destruct (skip_until items s) as [f r]. destruct IH as (j & Hj & -> & Hr).
          exists (c :: j). repeat split; [|exact Hr]. constructor; [|exact Hj]. split; [exact H0|].
          intros Hi. assert (existsb (N.eqb c) items = true); [|congruence].
          apply existsb_exists. exists c. split; [exact Hi | apply N.eqb_refl].
  Qed.

  Lemma nested_loop_nul fuel close s : nested_loop past fuel close (0%N :: s) = NoFuel.
  Proof. induction fuel as [|fuel IH]; [reflexivity|]. cbn [nested_loop skip_until]. exact IH. Qed.

  Lemma span_junk close j s : Forall (fun c => c <> 0%N /\ ~ In c [list_open; object_open; quote; close]) j ->
    span close s -> span close (j ++ s).
  Proof.
    intros Hj Hs. induction Hj as [|c j [H0 Hc] _ IH]; [exact Hs|]. cbn [app]. constructor; [|exact IH].
    intros H. apply Hc. cbn in H |- *. unfold list_open, object_open, quote. intuition congruence.
  Qed.

  Lemma nested_loop_ok : forall fuel close s r, In close [93; 125]%N -> nested_loop past fuel close s = Ok r ->
    exists i, span close i /\ s = i ++ close :: r.
  Proof.
    induction fuel as [|fuel IH]; intros close s r Hcl; [discriminate|].
    cbn [nested_loop]. destruct s as [|a s0]; [discriminate|].
    pose proof (skip_until_found [list_open; object_open; quote; close] (a :: s0)) as Hsk.
    destruct (skip_until _ (a :: s0)) as [f s]. destruct Hsk as (j & Hj & Es & Hf). rewrite Es. clear Es a s0.
    destruct f.
    2:{ destruct Hf as [->|(r' & ->)]; [destruct fuel; discriminate | rewrite nested_loop_nul; discriminate]. }
    destruct Hf as (c & s' & -> & Hc). cbn [peek obind tl].
    destruct (N.eqb_spec c quote) as [->|Hq].
    - destruct (find_string past (quote :: s')) as [[v s2]| | |] eqn:E; cbn [obind]; try discriminate.
      apply find_string_ok in E as [Hv Es]. rewrite Es. intros H. apply IH in H as (i & Hi & ->); [|exact Hcl].
      exists (j ++ v ++ i). split; [apply span_junk; [exact Hj | constructor; assumption] | now rewrite <- !app_assoc].
    - destruct (N.eqb_spec c list_open) as [->|Hl].
      + destruct (nested_loop past fuel list_close s') as [s2| | |] eqn:E; cbn [obind]; try discriminate.
        apply IH in E as (i & Hi & ->); [|cbn; auto]. intros H. apply IH in H as (i2 & Hi2 & ->); [|exact Hcl].
        exists (j ++ [91%N] ++ i ++ [93%N] ++ i2). split; [apply span_junk; [exact Hj | apply span_array; assumption]|].
        rewrite <- !app_assoc. reflexivity.
      + destruct (N.eqb_spec c object_open) as [->|Ho].
        * destruct (nested_loop past fuel object_close s') as [s2| | |] eqn:E; cbn [obind]; try discriminate.
          apply IH in E as (i & Hi & ->); [|cbn; auto]. intros H. apply IH in H as (i2 & Hi2 & ->); [|exact Hcl].
          exists (j ++ [123%N] ++ i ++ [125%N] ++ i2). split; [apply span_junk; [exact Hj | apply span_object; assumption]|].
          rewrite <- !app_assoc. reflexivity.
        * intros [= <-]. cbn in Hc. destruct Hc as [Hc|[Hc|[Hc|[Hc|[]]]]]; try congruence. subst c.
          exists j. split; [rewrite <- (app_nil_r j); apply span_junk; [exact Hj | constructor] | reflexivity].
  Qed.

  (** ** Values *)
  Lemma find_value_ok fuel s v r : find_value past fuel s = Ok (v, r) -> loose_value v /\ s = v ++ r.
  Proof.
    unfold find_value. destruct (peek past s) as [c| | |] eqn:Ep; cbn [obind]; try discriminate.
    destruct (N.eqb_spec c list_open) as [->|_]; [|destruct (N.eqb_spec c object_open) as [->|_]; [|destruct (c =? quote)%N; [|destruct (N.eqb_spec c 110)%N as [->|_]; [|discriminate]]]].
    - unfold find_list. rewrite Ep. cbn [obind]. change ((list_open =? list_open)%N) with true. cbv iota.
      destruct s as [|x s]; [destruct fuel; discriminate|]. cbn [peek] in Ep. injection Ep as ->. cbn [tl].
      destruct (nested_loop past fuel list_close s) as [r'| | |] eqn:E; cbn [obind]; try discriminate.
      apply nested_loop_ok in E as (i & Hi & ->); [|cbn; auto]. intros [= <- <-].
      replace (list_open :: i ++ list_close :: r') with (([91%N] ++ i ++ [93%N]) ++ r')
        by (cbn [app]; rewrite <- app_assoc; reflexivity).
      rewrite up_to_app. split; [right; right; left; exists i; auto | reflexivity].
    - unfold find_object. rewrite Ep. cbn [obind]. change ((object_open =? object_open)%N) with true. cbv iota.
      destruct s as [|x s]; [destruct fuel; discriminate|]. cbn [peek] in Ep. injection Ep as ->. cbn [tl].
      destruct (nested_loop past fuel object_close s) as [r'| | |] eqn:E; cbn [obind]; try discriminate.
      apply nested_loop_ok in E as (i & Hi & ->); [|cbn; auto]. intros [= <- <-].
      replace (object_open :: i ++ object_close :: r') with (([123%N] ++ i ++ [125%N]) ++ r')
        by (cbn [app]; rewrite <- app_assoc; reflexivity).
      rewrite up_to_app. split; [right; right; right; exists i; auto | reflexivity].
    - intros H. apply find_string_ok in H as [Hv ->]. split; [right; left; exact Hv | reflexivity].
    - unfold find_null. destruct (slice s 0 4) as [v'|] eqn:Es; [|discriminate].
      destruct (same_bytes v' $"null") eqn:En; [|discriminate]. rewrite same_bytes_same in En. apply same_eq in En.
      intros [= <- <-]. subst v'. unfold slice in Es.
      destruct ((0 <=? 0) && (0 + Z.of_nat 4 <=? Z.of_nat (length s))); [|discriminate].
      injection Es as Es. change (skipn (Z.to_nat 0) s) with s in Es.
      split; [left; reflexivity | rewrite <- Es; symmetry; exact (firstn_skipn 4 s)].
  Qed.

  Lemma find_value_loose fuel v r : loose_value v -> (length v <= fuel)%nat -> find_value past fuel (v ++ r) = Ok (v, r).
  Proof.
    intros [->|[Hv|[(i & Hi & ->)|(i & Hi & ->)]]] Hf.
    - unfold find_value, find_null. cbn [app].
      change $"null" with [110; 117; 108; 108]%N. cbn [app peek obind]. change ((110 =? list_open)%N) with false.
      change ((110 =? object_open)%N) with false. change ((110 =? quote)%N) with false. change ((110 =? 110)%N) with true.
      cbv iota. unfold slice. change (Z.to_nat 0) with 0%nat. cbn [skipn firstn].
      replace ((0 <=? 0) && (0 + Z.of_nat 4 <=? Z.of_nat (length (110 :: 117 :: 108 :: 108 :: r)%N))) with true
        by (symmetry; cbn [length]; lia).
      reflexivity.
    - unfold find_value. rewrite find_string_text by exact Hv. destruct Hv as (s & Hs & ->). reflexivity.
    - cbn [app length] in Hf. rewrite app_length in Hf. cbn [length] in Hf.
      unfold find_value, find_list. cbn [app peek obind tl].
      change ((91 =? list_open)%N) with true. cbv iota. rewrite <- app_assoc. cbn [app].
      rewrite nested_loop_span by (cbn; auto || lia). cbn [obind]. f_equal. f_equal.
      replace (91%N :: i ++ 93%N :: r) with ((91%N :: i ++ [93%N]) ++ r) by (cbn [app]; rewrite <- app_assoc; reflexivity).
      apply up_to_app.
    - cbn [app length] in Hf. rewrite app_length in Hf. cbn [length] in Hf.
      unfold find_value, find_object. cbn [app peek obind tl].
      change ((123 =? list_open)%N) with false. change ((123 =? object_open)%N) with true. cbv iota. rewrite <- app_assoc. cbn [app].
      rewrite nested_loop_span by (cbn; auto || lia). cbn [obind]. f_equal. f_equal.
      replace (123%N :: i ++ 125%N :: r) with ((123%N :: i ++ [125%N]) ++ r) by (cbn [app]; rewrite <- app_assoc; reflexivity).
      apply up_to_app.
  Qed.

  (** ** Members *)
  Fixpoint members_fold (m : metadata) (ms : list (bytes * bytes)) : outcome metadata :=
    match ms with
    | [] => Ok m
    | (k, v) :: ms => do m <- member m k v; members_fold m ms
    end.

  Lemma skip_until_junk items j s : Forall (fun c => c <> 0%N /\ ~ In c items) j -> skip_until items (j ++ s) = skip_until items s.
  Proof.
    induction 1 as [|c j [H0 Hc] _ IH]; [reflexivity|]. cbn [app]. rewrite skip_until_skip; [exact IH | exact H0|].
    apply existsb_not_in. exact Hc.
  Qed.
  Lemma junk_skipped j : junk j -> Forall (fun c => c <> 0%N /\ ~ In c [comma; object_close]) j.
  Proof.
    intros H. eapply Forall_impl; [|exact H]. intros c Hc. cbn in *. unfold comma, object_close. intuition congruence.
  Qed.

  Lemma text_nonblank t s : json_string t -> skip_whitespace (t ++ s) = t ++ s.
  Proof. intros (x & _ & ->). apply skip_none; reflexivity. Qed.
  Lemma text_not_close t s : json_string t -> exists r, t ++ s = 34%N :: r.
  Proof. intros (x & _ & ->). eexists. reflexivity. Qed.
  Lemma value_nonblank v s : loose_value v -> skip_whitespace (v ++ s) = v ++ s.
  Proof.
    intros [->|[H|[(i & _ & ->)|(i & _ & ->)]]]; [apply skip_none; reflexivity | apply text_nonblank; exact H | |];
      apply skip_none; reflexivity.
  Qed.
  Lemma blank_not_close w t s : blank w -> json_string t -> exists c r, w ++ t ++ s = c :: r /\ (c =? object_close)%N = false.
  Proof.
    intros Hw Ht. destruct Hw as [|c w Hc _].
    - destruct (text_not_close t s Ht) as (r & E). exists 34%N, r. split; [exact E | reflexivity].
    - exists c, (w ++ t ++ s). split; [reflexivity|]. cbn in Hc. destruct Hc as [<-|[<-|[<-|[<-|[]]]]]; reflexivity.
  Qed.

  (** One turn of the loop, up to what follows the value *)
  Lemma members_step fuel m w1 k w2 w3 v j s : blank w1 -> json_string k -> blank w2 -> blank w3 -> loose_value v -> junk j ->
    (length v <= S fuel)%nat ->
    members_loop past (S fuel) m (w1 ++ k ++ w2 ++ [58%N] ++ w3 ++ v ++ j ++ s) =
    do m <- member m k v;
    let s := snd (skip_until [comma; object_close] s) in
    do c <- peek past s;
    members_loop past fuel m (if (c =? comma)%N then tl s else s).
  Proof.
    intros Hw1 Hk Hw2 Hw3 Hv Hj Hf. cbn [members_loop].
    destruct (blank_not_close w1 k (w2 ++ [58%N] ++ w3 ++ v ++ j ++ s) Hw1 Hk) as (c & r & E & Ec).
    rewrite E, Ec, <- E. clear c r E Ec.
    rewrite skip_blank, text_nonblank by assumption. rewrite find_string_text by exact Hk. cbn [obind].
    rewrite skip_blank by exact Hw2. cbn [app]. rewrite (skip_none 58) by reflexivity.
    unfold parse_char at 1. change ((58 =? colon)%N) with true. cbv iota. cbn [obind].
    rewrite skip_blank, value_nonblank by assumption. rewrite find_value_loose by assumption. cbn [obind].
    rewrite (skip_until_junk _ j) by (apply junk_skipped; exact Hj). reflexivity.
  Qed.

  Lemma members_loop_loose ms b : loose_members ms b -> forall fuel m r, (length b < fuel)%nat ->
    members_loop past fuel m (b ++ 125%N :: r) = do m <- members_fold m ms; Ok (m, 125%N :: r).
  Proof.
    induction 1 as [|w1 k w2 w3 v j Hw1 Hk Hw2 Hw3 Hv Hj|w1 k w2 w3 v j ms b Hw1 Hk Hw2 Hw3 Hv Hj _ IH]; intros fuel m r Hf;
      (destruct fuel as [|fuel]; [lia|]).
    - reflexivity.
    - repeat rewrite app_length in Hf. cbn [length] in Hf. repeat rewrite <- app_assoc. cbn [members_fold].
      rewrite members_step by (assumption || lia).
      destruct (member m k v) as [m'| | |]; try reflexivity. cbn [obind snd].
      cbn [skip_until]. change ((125 =? 0)%N) with false. cbv iota.
      change (existsb (N.eqb 125) [comma; object_close]) with true. cbv iota. cbn [snd peek obind].
      change ((125 =? comma)%N) with false. cbv iota. destruct fuel; [destruct Hk as (x & _ & ->); cbn in Hf; lia | reflexivity].
    - repeat rewrite app_length in Hf. cbn [length] in Hf. repeat rewrite <- app_assoc. cbn [members_fold].
      rewrite members_step by (assumption || lia).
      destruct (member m k v) as [m'| | |]; try reflexivity. cbn [obind].
      cbn [app skip_until]. change ((44 =? 0)%N) with false. cbv iota.
      change (existsb (N.eqb 44) [comma; object_close]) with true. cbv iota. cbn [snd peek obind].
      change ((44 =? comma)%N) with true. cbv iota. cbn [tl]. apply IH. lia.
  Qed.

  Lemma members_loop_ok : forall fuel m s m' r, members_loop past fuel m s = Ok (m', 125%N :: r) ->
    exists ms b, loose_members ms b /\ s = b ++ 125%N :: r /\ members_fold m ms = Ok m'.
  Proof.
    induction fuel as [|fuel IH]; intros m s m' r; [discriminate|]. cbn [members_loop].
    destruct s as [|c s0]; [discriminate|].
    destruct (N.eqb_spec c object_close) as [->|Hc].
    { intros [= -> ->]. exists [], []. split; [constructor | split; reflexivity]. }
    set (s := c :: s0). destruct (skip_split s) as (w1 & Hw1 & E1).
    destruct (find_string past (skip_whitespace s)) as [[k s2]| | |] eqn:Ek; cbn [obind]; try discriminate.
    apply find_string_ok in Ek as [Hk Ek]. rewrite Ek in E1. clearbody s. subst s. clear c s0 Hc Ek.
    destruct (skip_split s2) as (w2 & Hw2 & E2).
    destruct (skip_whitespace s2) as [|x s3]; [discriminate|]. cbn [parse_char].
    destruct (N.eqb_spec x colon) as [->|]; [|discriminate]. cbn [obind]. subst s2.
    destruct (skip_split s3) as (w3 & Hw3 & E3).
    destruct (find_value past (S fuel) (skip_whitespace s3)) as [[v s4]| | |] eqn:Ev; cbn [obind]; try discriminate.
    apply find_value_ok in Ev as [Hv E4]. rewrite E4 in E3. subst s3. clear E4.
    destruct (member m k v) as [m1| | |] eqn:Em; cbn [obind]; try discriminate.
    pose proof (skip_until_found [comma; object_close] s4) as Hsk.
    destruct (skip_until _ s4) as [f s5]. cbn [snd]. destruct Hsk as (j & Hj & -> & Hf).
    assert (Hj' : junk j).
    { eapply Forall_impl; [|exact Hj]. intros c [H0 Hc]. cbn in Hc |- *. unfold comma, object_close in Hc. intuition congruence. }
    destruct (peek past s5) as [c| | |] eqn:Ep; cbn [obind]; try discriminate.
    destruct f.
    - destruct Hf as (c' & s6 & -> & Hc'). cbn [peek] in Ep. injection Ep as ->. cbn [tl].
      destruct (N.eqb_spec c comma) as [->|Hn].
      + intros H. apply IH in H as (ms & b & Hb & -> & Hm).
        exists ((k, v) :: ms), (w1 ++ k ++ w2 ++ [58%N] ++ w3 ++ v ++ j ++ [44%N] ++ b).
        split; [apply loose_more; assumption|]. split; [unfold comma, colon; repeat rewrite <- app_assoc; reflexivity|].
        cbn [members_fold]. rewrite Em. exact Hm.
      + cbn in Hc'. destruct Hc' as [Hc'|[Hc'|[]]]; [congruence|]. subst c.
        destruct fuel as [|fuel]; [discriminate|]. intros [= -> ->].
        exists [(k, v)], (w1 ++ k ++ w2 ++ [58%N] ++ w3 ++ v ++ j).
        split; [apply loose_last; assumption|]. split; [unfold colon; repeat rewrite <- app_assoc; reflexivity|].
        cbn [members_fold]. rewrite Em. reflexivity.
    - destruct Hf as [->|(r' & ->)].
      + intros H. destruct (c =? comma)%N; cbn [tl] in H; (destruct fuel; discriminate H).
      + cbn [peek] in Ep. injection Ep as <-. change ((0 =? comma)%N) with false. cbv iota.
        destruct fuel as [|fuel]; [discriminate|]. cbn [members_loop]. change ((0 =? object_close)%N) with false. cbv iota.
        rewrite skip_none by reflexivity. discriminate.
  Qed.
End Past.
