From Verif Require Import Base BaseFacts GeomSpec VisitorModel VisitorSpec.
Local Open Scope Z_scope.

(** ** Programs that return every error at once *)
Inductive lawful {A} : prog A -> Prop :=
| law_ret o : lawful (Ret o)
| law_call e k : (forall c, c <> 0 -> k c = Ret (Err c)) -> lawful (k 0) -> lawful (Call e k).

Lemma lawful_emit e : lawful (emit e).
Proof.
  constructor.
  - intros c Hc. destruct (Z.eqb_spec c 0); [contradiction|reflexivity].
  - constructor.
Qed.

Lemma lawful_bind {A B} (p : prog A) (f : A -> prog B) :
  lawful p -> (forall a, lawful (f a)) -> lawful (pbind p f).
Proof.
  intros Hp Hf. induction Hp as [[a|c| |]|e k Hk Hl IH]; cbn [pbind]; try constructor; auto.
  intros c Hc. rewrite Hk by exact Hc. reflexivity.
Qed.

Lemma run_lawful {S A} (v : visitor S) (p : prog A) : lawful p -> forall s,
  run v p s = match feed v s (fst (trace p)) with
              | Some (s', c) => Some (s', if c =? 0 then snd (trace p) else Err c)
              | None => None
              end.
Proof.
  induction 1 as [o|e k Hk Hl IH]; intros s; cbn [run trace feed fst snd]; [reflexivity|].
  destruct (trace (k 0)) as [evs o] eqn:E. cbn [fst snd feed].
  destruct (v s e) as [s' c|]; [|reflexivity].
  destruct (Z.eqb_spec c 0) as [->|Hc].
  - rewrite IH. cbn [fst snd]. reflexivity.
  - rewrite Hk by exact Hc. cbn [run]. destruct (Z.eqb_spec c 0); [contradiction|reflexivity].
Qed.

Lemma feed_app {S} (v : visitor S) s a b :
  feed v s (a ++ b) = match feed v s a with
                      | Some (s', c) => if c =? 0 then feed v s' b else Some (s', c)
                      | None => None
                      end.
Proof.
  revert s; induction a as [|e a IH]; intros s; cbn [app feed].
  - reflexivity.
  - destruct (v s e) as [s' c|]; [|reflexivity].
    destruct (Z.eqb_spec c 0) as [->|Hc]; [apply IH|]. destruct (Z.eqb_spec c 0); [contradiction|reflexivity].
Qed.

Lemma feed_app_ok {S} (v : visitor S) s s1 a b : feed v s a = Some (s1, 0) -> feed v s (a ++ b) = feed v s1 b.
Proof. intros E. rewrite feed_app, E. reflexivity. Qed.

Lemma feed_cons_ok {S} (v : visitor S) s s1 e b : v s e = VRet s1 0 -> feed v s (e :: b) = feed v s1 b.
Proof. intros E. cbn [feed]. rewrite E. reflexivity. Qed.

Lemma scripted_feed codes evs seen :
  (forall k, (length seen <= k < length seen + length evs)%nat -> codes k = 0) ->
  feed (scripted codes) seen evs = Some (seen ++ evs, 0).
Proof.
  revert seen; induction evs as [|e evs IH]; intros seen H; cbn [feed].
  - rewrite app_nil_r. reflexivity.
  - unfold scripted at 1. rewrite (H (length seen)) by (cbn; lia). change (0 =? 0) with true. cbv iota.
    rewrite IH.
    + rewrite <- app_assoc. reflexivity.
    + intros k Hk. rewrite app_length in Hk. cbn in Hk. apply H. cbn. lia.
Qed.

Lemma scripted_feed_fail codes evs n :
  (forall k, (k < n)%nat -> codes k = 0) -> codes n <> 0 -> (n < length evs)%nat ->
  feed (scripted codes) [] evs = Some (firstn (S n) evs, codes n).
Proof.
  intros Hz Hn Hlt.
  rewrite <- (firstn_skipn n evs) at 1.
  rewrite (feed_app_ok _ [] (firstn n evs)).
  2:{ apply (scripted_feed codes (firstn n evs) []). intros k Hk. rewrite firstn_length in Hk. cbn in Hk. apply Hz. lia. }
  destruct (skipn n evs) as [|e r] eqn:E.
  { apply (f_equal (@length _)) in E. rewrite skipn_length in E. cbn in E. lia. }
  cbn [feed]. unfold scripted at 1. rewrite firstn_length, Nat.min_l by lia.
  destruct (Z.eqb_spec (codes n) 0); [contradiction|]. f_equal. f_equal.
  assert (firstn (S n) evs = firstn n evs ++ [e]) as ->; [|reflexivity].
  rewrite <- (firstn_skipn n evs) at 1. rewrite firstn_app, firstn_firstn, firstn_length.
  replace (Nat.min (S n) n) with n by lia. f_equal. rewrite Nat.min_l by lia.
  replace (S n - n)%nat with 1%nat by lia. rewrite E. reflexivity.
Qed.

(** With a visitor that fails at its [n]-th call, a lawful program makes the same first [n] calls and returns the code. *)
Lemma lawful_propagates {A} (p : prog A) codes n : lawful p ->
  (forall k, (k < n)%nat -> codes k = 0) -> codes n <> 0 -> (n < length (fst (trace p)))%nat ->
  run (scripted codes) p [] = Some (firstn (S n) (fst (trace p)), Err (codes n)).
Proof.
  intros Hp Hz Hn Hlt. rewrite run_lawful by exact Hp. rewrite (scripted_feed_fail _ _ n) by assumption.
  destruct (Z.eqb_spec (codes n) 0); [contradiction|]. reflexivity.
Qed.

(** ** Traces *)
Lemma trace_bind {A B} (p : prog A) (f : A -> prog B) :
  trace (pbind p f) =
  match trace p with
  | (e1, Ok a) => let (e2, o) := trace (f a) in (e1 ++ e2, o)
  | (e1, Err c) => (e1, Err c)
  | (e1, UB) => (e1, UB)
  | (e1, NoFuel) => (e1, NoFuel)
  end.
Proof.
  induction p as [[a|c| |]|e k IH]; cbn [pbind trace]; try reflexivity.
  - destruct (trace (f a)); reflexivity.
  - rewrite IH. destruct (trace (k 0)) as [e1 [a|c| |]]; try reflexivity.
    destruct (trace (f a)) as [e2 o]. reflexivity.
Qed.

Lemma trace_bind_ok {A B} (p : prog A) (f : A -> prog B) e1 a e2 o :
  trace p = (e1, Ok a) -> trace (f a) = (e2, o) -> trace (pbind p f) = (e1 ++ e2, o).
Proof. intros H1 H2. rewrite trace_bind, H1, H2. reflexivity. Qed.

Lemma trace_bind_ret {A B} (p : prog A) (f : A -> prog B) e1 a b :
  trace p = (e1, Ok a) -> f a = Ret (Ok b) -> trace (pbind p f) = (e1, Ok b).
Proof. intros H1 H2. rewrite trace_bind, H1, H2. cbn [trace]. rewrite app_nil_r. reflexivity. Qed.

Lemma trace_emit e : trace (emit e) = ([e], Ok tt).
Proof. reflexivity. Qed.

Lemma trace_emit_bind {B} e (f : unit -> prog B) e2 o : trace (f tt) = (e2, o) -> trace (pbind (emit e) f) = (e :: e2, o).
Proof. intros H. apply (trace_bind_ok _ _ [e] tt e2 o); [reflexivity|exact H]. Qed.

Lemma trace_ret_bind {A B} (a : A) (f : A -> prog B) : pbind (Ret (Ok a)) f = f a.
Proof. reflexivity. Qed.

(** ** Nesting *)
Lemma nest_all_app st a b :
  nest_all st (a ++ b) = match nest_all st a with Some st' => nest_all st' b | None => None end.
Proof.
  revert st; induction a as [|e a IH]; intros st; cbn [app nest_all]; [reflexivity|].
  destruct (nest st e); [apply IH|reflexivity].
Qed.

(** Program [p], started with brackets [st] open, only makes allowed calls, and leaves [st'] open when it succeeds. *)
Definition nests {A} (p : prog A) (st st' : list frame) : Prop :=
  exists st1, nest_all st (fst (trace p)) = Some st1 /\ forall a, snd (trace p) = Ok a -> st1 = st'.

Lemma nests_ret {A} (o : outcome A) st : nests (Ret o) st st.
Proof. exists st. split; [reflexivity|]. auto. Qed.

Lemma nests_emit e st st' : nest st e = Some st' -> nests (emit e) st st'.
Proof. intros H. exists st'. rewrite trace_emit. cbn [fst snd nest_all]. rewrite H. auto. Qed.

Lemma nests_bind {A B} (p : prog A) (f : A -> prog B) st st1 st2 :
  nests p st st1 -> (forall a, nests (f a) st1 st2) -> nests (pbind p f) st st2.
Proof.
  intros (x & Hx & Hp) Hf. unfold nests. rewrite trace_bind.
  destruct (trace p) as [e1 [a|c| |]]; cbn [fst snd] in *.
  - specialize (Hp a eq_refl). subst x. destruct (Hf a) as (y & Hy & Ha).
    destruct (trace (f a)) as [e2 o]. cbn [fst snd] in *. exists y. rewrite nest_all_app, Hx. auto.
  - exists x. split; [exact Hx|discriminate].
  - exists x. split; [exact Hx|discriminate].
  - exists x. split; [exact Hx|discriminate].
Qed.

Inductive ok_stack : list frame -> Prop :=
| oks_nil : ok_stack []
| oks_feat : ok_stack [FFeat]
| oks_geom f st : f <> FRing -> ok_stack (f :: st) -> ok_stack (FGeom :: f :: st)
| oks_ring st : ok_stack (FGeom :: st) -> ok_stack (FRing :: FGeom :: st).

Lemma nest_ok_stack st e st' : ok_stack st -> nest st e = Some st' -> ok_stack st'.
Proof.
  intros H E. destruct H as [| |f st Hf Hs|st Hs].
  - destruct e; cbn in E; try discriminate. injection E as <-. constructor.
  - destruct e; cbn in E; try discriminate; injection E as <-; repeat constructor; congruence.
  - destruct e, f; cbn in E; try discriminate; try contradiction; injection E as <-; repeat constructor; congruence || assumption.
  - destruct e; cbn in E; try discriminate; injection E as <-; constructor || assumption. exact Hs.
Qed.

Lemma nest_all_ok_stack st evs st' : ok_stack st -> nest_all st evs = Some st' -> ok_stack st'.
Proof.
  revert st; induction evs as [|e evs IH]; intros st H E; cbn [nest_all] in E.
  - injection E as <-. exact H.
  - destruct (nest st e) as [st1|] eqn:E1; [|discriminate]. apply (IH st1); [|exact E].
    apply (nest_ok_stack st e); assumption.
Qed.

Lemma ok_stack_close st : ok_stack st -> exists rest, nest_all st rest = Some [].
Proof.
  induction 1 as [| |f st Hf Hs [r Hr]|st Hs [r Hr]].
  - exists []. reflexivity.
  - exists [EFeatEnd]. reflexivity.
  - exists (EGeomEnd :: r). exact Hr.
  - exists (ERingEnd :: r). exact Hr.
Qed.

Lemma nest_all_prefix evs st : nest_all [] evs = Some st -> nested_prefix evs.
Proof.
  intros E. destruct (ok_stack_close st) as [rest Hr].
  - apply (nest_all_ok_stack [] evs); [constructor|exact E].
  - exists rest. unfold well_nested. rewrite nest_all_app, E. exact Hr.
Qed.

Lemma nests_prefix {A} (p : prog A) : nests p [] [] ->
  nested_prefix (fst (trace p)) /\ (forall a, snd (trace p) = Ok a -> well_nested (fst (trace p))).
Proof.
  intros (st & E & H). split; [apply (nest_all_prefix _ st E)|]. intros a Ha. unfold well_nested. rewrite E, (H a Ha). reflexivity.
Qed.

(** Prefixes of prefixes. *)
Lemma nested_prefix_firstn n evs : nested_prefix evs -> nested_prefix (firstn n evs).
Proof. intros [rest H]. exists (skipn n evs ++ rest). rewrite app_assoc, firstn_skipn. exact H. Qed.
