From Verif Require Import Base BaseFacts Text GeomSpec GeomFacts VisitorModel VisitorSpec VisitorFacts WktSpec WktReaderModel WktGrammar WktReaderFacts.
Local Open Scope Z_scope.

(** ** Outcomes of programs: the error EINVAL, or a result that satisfies [Q]; never undefined behaviour *)
Definition post {A} (p : prog A) (Q : list event -> A -> Prop) : Prop :=
  match trace p with
  | (e, Ok a) => Q e a
  | (_, Err c) => c = EINVAL
  | _ => False
  end.
Lemma post_bind {A B} (p : prog A) (f : A -> prog B) (Q : list event -> B -> Prop) :
  post p (fun e a => post (f a) (fun e' b => Q (e ++ e') b)) -> post (pbind p f) Q.
Proof.
  unfold post. rewrite trace_bind. destruct (trace p) as [e [a|c| |]]; auto. destruct (trace (f a)) as [e2 [b|c| |]]; auto.
Qed.
Lemma post_weaken {A} (p : prog A) (Q Q' : list event -> A -> Prop) : post p Q -> (forall e a, Q e a -> Q' e a) -> post p Q'.
Proof. unfold post. destruct (trace p) as [e [a|c| |]]; auto. Qed.
Lemma post_ret {A} (a : A) (Q : list event -> A -> Prop) : Q [] a -> post (Ret (Ok a)) Q.
Proof. auto. Qed.
Lemma post_err {A} (Q : list event -> A -> Prop) : post (Ret (Err EINVAL)) Q.
Proof. reflexivity. Qed.
Lemma post_emit {B} ev (f : unit -> prog B) (Q : list event -> B -> Prop) :
  post (f tt) (fun e b => Q (ev :: e) b) -> post (pbind (emit ev) f) Q.
Proof. intros H. apply post_bind. unfold post at 1. rewrite trace_emit. exact H. Qed.

(** ** Moving through the text *)
Definition moved (s : rst) (t : bytes) (s' : rst) : Prop :=
  r_rest s = t ++ r_rest s' /\ r_before s' = rev t ++ r_before s /\ good s'.
Lemma moved_past s t r : r_rest s = t ++ r -> moved s t (past s t r).
Proof. intros H. split; [exact H|]. split; reflexivity. Qed.
Lemma moved_trans s t s1 u s2 : moved s t s1 -> moved s1 u s2 -> moved s (t ++ u) s2.
Proof.
  intros (A1 & B1 & C1) (A2 & B2 & C2). split; [rewrite A1, A2, app_assoc; reflexivity|]. split; [|exact C2].
  rewrite B2, B1, rev_app_distr, app_assoc. reflexivity.
Qed.
Lemma moved_refl s : good s -> moved s [] s.
Proof. intros H. repeat split. exact H. Qed.
Lemma moved_rest s t s' r : moved s t s' -> r_rest s = t ++ r -> r_rest s' = r.
Proof. intros (A & _) E. rewrite A in E. apply app_inv_head in E. exact E. Qed.
Lemma moved_good s t s' : moved s t s' -> good s'.
Proof. intros (_ & _ & H). exact H. Qed.
Lemma moved_length s t s' : moved s t s' -> length (r_rest s) = (length t + length (r_rest s'))%nat.
Proof. intros (A & _). rewrite A, app_length. reflexivity. Qed.

Lemma word_end_comma r : word_end ($"," ++ r).
Proof. change (ends_word 44). unfold ends_word. cbn. lia. Qed.
Lemma word_end_close r : word_end ($")" ++ r).
Proof. change (ends_word 41). unfold ends_word. cbn. lia. Qed.

(** ** Lists *)
Section Loop.
Context {A : Type}.
Variable R : A -> bytes -> Prop.
Fixpoint tail_text (ys : list A) (t : bytes) : Prop :=
  match ys with
  | [] => t = []
  | y :: ys' => exists b2 t1 b3 u, blank b2 /\ R y t1 /\ blank b3 /\ tail_text ys' u /\ t = $"," ++ b2 ++ t1 ++ b3 ++ u
  end.
Lemma list_tail x ys t : list_text R (x :: ys) t <-> exists t1 b1 u, R x t1 /\ blank b1 /\ tail_text ys u /\ t = t1 ++ b1 ++ u.
Proof.
  revert x t; induction ys as [|y ys IH]; intros x t.
  - cbn. split.
    + intros (t1 & b1 & H & Hb & ->). exists t1, b1, []. rewrite app_nil_r. auto.
    + intros (t1 & b1 & u & H & Hb & -> & ->). exists t1, b1. rewrite app_nil_r. auto.
  - change (list_text R (x :: y :: ys) t) with
      (exists t1 b1, R x t1 /\ blank b1 /\ exists b2 u, blank b2 /\ list_text R (y :: ys) u /\ t = t1 ++ b1 ++ $"," ++ b2 ++ u).
    split.
    + intros (t1 & b1 & H & Hb & b2 & u & Hb2 & Hu & ->). apply IH in Hu as (t2 & b3 & u3 & H2 & Hb3 & Ht & ->).
      exists t1, b1, ($"," ++ b2 ++ t2 ++ b3 ++ u3). repeat (split; [assumption|]). split; [|reflexivity].
      cbn. exists b2, t2, b3, u3. auto.
    + intros (t1 & b1 & u & H & Hb & (b2 & t2 & b3 & u3 & Hb2 & H2 & Hb3 & Ht & ->) & ->).
      exists t1, b1. repeat (split; [assumption|]). exists b2, (t2 ++ b3 ++ u3). split; [exact Hb2|]. split; [|reflexivity]. apply IH. exists t2, b3, u3. auto.
Qed.

Variable J : list A -> list event -> rst -> Prop.
Variable item : rst -> prog rst.
Variable bound : nat.
Hypothesis J_past : forall xs e s t r, J xs e s -> J xs e (past s t r).

Section Complete.
Hypothesis solid : forall x t r, R x t -> no_space (t ++ r).
Hypothesis step : forall xs e s x t r, good s -> J xs e s -> (length (r_rest s) < bound)%nat -> r_rest s = t ++ r -> R x t -> word_end r ->
  exists e1 s', trace (item s) = (e1, Ok s') /\ J (xs ++ [x]) (e ++ e1) s' /\ moved s t s'.

Lemma tail_end ys u r : tail_text ys u -> word_end r -> no_space r -> word_end (u ++ r) /\ no_space (u ++ r).
Proof.
  intros H Hr Hn. destruct ys as [|y ys]; cbn in H; [subst u; auto|].
  destruct H as (b2 & t1 & b3 & u3 & _ & _ & _ & _ & ->). split; [apply word_end_comma|reflexivity].
Qed.

Lemma more_items_complete ys : forall fuel xs e s t r, good s -> J xs e s -> (length (r_rest s) <= bound)%nat ->
  r_rest s = t ++ $")" ++ r -> tail_text ys t -> (length (r_rest s) <= fuel)%nat ->
  exists e1 s', trace (more_items fuel item s) = (e1, Ok s') /\ J (xs ++ ys) (e ++ e1) s' /\ moved s t s'.
Proof.
  induction ys as [|y ys IH]; intros fuel xs e s t r Hg HJ Hb Hr Ht Hf.
  - cbn in Ht. subst t. cbn [app] in Hr.
    assert (more_items fuel item s = Ret (Ok s)) as E.
    { destruct fuel; cbn [more_items]; rewrite (peek_ok s Hg), Hr; reflexivity. }
    exists [], s. rewrite E, !app_nil_r. split; [reflexivity|]. split; [exact HJ|]. apply moved_refl; exact Hg.
  - destruct Ht as (b2 & t1 & b3 & u & Hb2 & H1 & Hb3 & Hu & ->). destruct fuel as [|f]; [rewrite Hr, !app_length in Hf; change (length $")") with 1%nat in Hf; lia|].
    rewrite <- !app_assoc in Hr.
    assert (no_space ($")" ++ r)) as Hn by reflexivity.
    assert (word_end ($")" ++ r)) as Hw by apply word_end_close.
    destruct (tail_end _ _ _ Hu Hw Hn) as [Hw' Hn'].
    assert (word_end (b3 ++ u ++ $")" ++ r)) as Hw3 by (apply blank_word_end; assumption).
    cbn [more_items]. rewrite (peek_ok s Hg), Hr. rewrite trace_ret_bind. change (hd 0%N _ =? chr_close)%N with false. cbv iota.
    rewrite (skip_space_ok s [] (r_rest s) Hg eq_refl ltac:(constructor)) by (rewrite Hr; reflexivity). rewrite trace_ret_bind, past_nil by exact Hg.
    rewrite (assert_char_ok s chr_comma (b2 ++ t1 ++ b3 ++ u ++ $")" ++ r) Hg Hr), trace_ret_bind.
    rewrite (skip_space_ok _ b2 (t1 ++ b3 ++ u ++ $")" ++ r) (past_good _ _ _) (past_rest _ _ _) Hb2) by (apply (solid y); exact H1).
    rewrite trace_ret_bind, past_past. set (s1 := past s _ _).
    assert (moved s ([chr_comma] ++ b2) s1) as M1 by (apply moved_past; rewrite Hr, <- app_assoc; reflexivity).
    assert (length (r_rest s1) < bound)%nat as Hb1 by (pose proof (moved_length _ _ _ M1) as L; cbn [length app] in L; lia).
    destruct (step xs e s1 y t1 (b3 ++ u ++ $")" ++ r)) as (e1 & s2 & T1 & J1 & M2);
      [apply past_good|apply J_past; exact HJ|exact Hb1|reflexivity|exact H1|exact Hw3|].
    pose proof (moved_rest _ _ _ _ M2 eq_refl) as R2. pose proof (moved_good _ _ _ M2) as G2.
    destruct (IH f (xs ++ [y]) (e ++ e1) (past s2 b3 (u ++ $")" ++ r)) u r) as (e2 & s3 & T2 & J2 & M3);
      [apply past_good|apply J_past; exact J1| |reflexivity|exact Hu| |].
    { pose proof (moved_length _ _ _ M2) as L. rewrite R2, app_length in L. rewrite past_rest. lia. }
    { pose proof (moved_length _ _ _ M2) as L. rewrite R2, app_length in L. rewrite past_rest.
      pose proof (moved_length _ _ _ M1) as L'. cbn [length app] in L'. lia. }
    exists (e1 ++ e2), s3. split; [|split].
    + apply (trace_bind_ok _ _ e1 s2 e2); [exact T1|]. rewrite (skip_space_ok s2 b3 (u ++ $")" ++ r) G2 R2 Hb3) by exact Hn'. exact T2.
    + rewrite <- app_assoc in J2. cbn [app] in J2. rewrite app_assoc. exact J2.
    + eapply moved_trans in M3; [|eapply moved_trans; [eapply moved_trans; [exact M1|exact M2]|apply moved_past; exact R2]].
      rewrite <- !app_assoc in M3. exact M3.
Qed.

(** The items up to the closing parenthesis. *)
Lemma items_complete xs s u r : good s -> J [] [] s -> (length (r_rest s) < bound)%nat -> list_text R xs u -> r_rest s = u ++ $")" ++ r ->
  exists e s', trace (let! s := item s in let! s := Ret (skip_space s) in more_items (items_fuel s) item s) = (e, Ok s') /\
    J xs e s' /\ moved s u s'.
Proof.
  intros Hg HJ Hb Hx Hr. destruct xs as [|x xs]; [contradiction|]. apply list_tail in Hx as (t1 & b1 & v & H1 & Hb1 & Hv & ->).
  rewrite <- !app_assoc in Hr.
  assert (no_space ($")" ++ r)) as Hn by reflexivity.
  assert (word_end ($")" ++ r)) as Hw by apply word_end_close.
  destruct (tail_end _ _ _ Hv Hw Hn) as [Hw' Hn'].
  destruct (step [] [] s x t1 (b1 ++ v ++ $")" ++ r)) as (e1 & s1 & T1 & J1 & M1); try assumption; [apply blank_word_end; assumption|].
  pose proof (moved_rest _ _ _ _ M1 Hr) as R1. pose proof (moved_good _ _ _ M1) as G1.
  destruct (more_items_complete xs (items_fuel (past s1 b1 (v ++ $")" ++ r))) [x] e1 (past s1 b1 (v ++ $")" ++ r)) v r)
    as (e2 & s2 & T2 & J2 & M2); [apply past_good|apply J_past; exact J1| |reflexivity|exact Hv| |].
  { pose proof (moved_length _ _ _ M1) as L. rewrite R1, app_length in L. rewrite past_rest. lia. }
  { unfold items_fuel. lia. }
  exists (e1 ++ e2), s2. split; [|split].
  - apply (trace_bind_ok _ _ e1 s1 e2); [exact T1|]. rewrite (skip_space_ok s1 b1 _ G1 R1 Hb1) by exact Hn'. exact T2.
  - exact J2.
  - eapply moved_trans in M2; [|eapply moved_trans; [exact M1|apply moved_past; exact R1]]. rewrite <- app_assoc in M2. exact M2.
Qed.
End Complete.

Section Sound.
Hypothesis step : forall xs e s, good s -> no_space (r_rest s) -> J xs e s -> (length (r_rest s) < bound)%nat ->
  post (item s) (fun e1 s' => exists x t, R x t /\ J (xs ++ [x]) (e ++ e1) s' /\ moved s t s').

Lemma more_items_sound : forall fuel xs e s, good s -> no_space (r_rest s) -> J xs e s -> (length (r_rest s) <= bound)%nat -> (length (r_rest s) < fuel)%nat ->
  post (more_items fuel item s) (fun e1 s' => exists ys t r, tail_text ys t /\ J (xs ++ ys) (e ++ e1) s' /\ r_rest s' = $")" ++ r /\ moved s t s').
Proof.
  induction fuel as [|f IH]; intros xs e s Hg Hs HJ Hb Hf; [lia|]. cbn [more_items]. rewrite (peek_ok s Hg), trace_ret_bind.
  destruct (N.eqb_spec (hd 0%N (r_rest s)) chr_close) as [E|E].
  { apply post_ret. destruct (r_rest s) as [|c r] eqn:Er; [discriminate E|]. cbn in E. subst c.
    exists [], [], r. rewrite !app_nil_r. repeat split; try assumption. }
  rewrite (skip_space_ok s [] (r_rest s) Hg eq_refl ltac:(constructor) Hs), past_nil by exact Hg. rewrite trace_ret_bind.
  destruct (assert_char_any s chr_comma Hg) as [(r2 & E2 & ->)|[_ ->]]; [|apply post_err].
  rewrite trace_ret_bind.
  destruct (skip_space_any (past s [chr_comma] r2) (past_good _ _ _)) as (b2 & r3 & E3 & Hb2 & Hn3 & ->). rewrite trace_ret_bind, past_past.
  rewrite past_rest in E3. set (s1 := past s _ r3).
  assert (moved s ([chr_comma] ++ b2) s1) as M1 by (apply moved_past; rewrite E2, E3; reflexivity).
  pose proof (moved_length _ _ _ M1) as L1. rewrite !app_length in L1. cbn [length] in L1.
  apply post_bind. eapply post_weaken; [apply (step xs e); [apply past_good|exact Hn3|apply J_past; exact HJ|lia]|].
  intros e1 s2 (x & t & H & J1 & M2). cbv beta. pose proof (moved_good _ _ _ M2) as G2. pose proof (moved_length _ _ _ M2) as L2.
  destruct (skip_space_any s2 G2) as (b3 & r4 & E4 & Hb3 & Hn4 & ->). rewrite trace_ret_bind.
  assert (length (r_rest s2) = (length b3 + length r4)%nat) as L3 by (rewrite E4, app_length; reflexivity).
  eapply post_weaken; [apply (IH (xs ++ [x]) (e ++ e1)); [apply past_good|exact Hn4|apply J_past; exact J1|rewrite past_rest; lia|rewrite past_rest; lia]|].
  intros e2 s3 (ys & u & r & Hu & J2 & R3 & M3).
  exists (x :: ys), ($"," ++ b2 ++ t ++ b3 ++ u), r. rewrite <- !app_assoc in J2. cbn [app] in J2.
  split; [|split; [exact J2|split; [exact R3|]]].
  - cbn [tail_text]. exists b2, t, b3, u. auto.
  - eapply moved_trans in M3; [|eapply moved_trans; [eapply moved_trans; [exact M1|exact M2]|apply moved_past; exact E4]].
    rewrite <- !app_assoc in M3. exact M3.
Qed.

Lemma items_sound s : good s -> no_space (r_rest s) -> J [] [] s -> (length (r_rest s) < bound)%nat ->
  post (let! s := item s in let! s := Ret (skip_space s) in more_items (items_fuel s) item s)
    (fun e s' => exists xs u r, list_text R xs u /\ J xs e s' /\ r_rest s' = $")" ++ r /\ moved s u s').
Proof.
  intros Hg Hs HJ Hb. apply post_bind. eapply post_weaken; [apply (step [] []); assumption|].
  intros e1 s1 (x & t & H & J1 & M1). cbn [app] in J1. pose proof (moved_good _ _ _ M1) as G1. pose proof (moved_length _ _ _ M1) as L1.
  destruct (skip_space_any s1 G1) as (b1 & r1 & E1 & Hb1 & Hn1 & ->). rewrite trace_ret_bind.
  assert (length (r_rest s1) = (length b1 + length r1)%nat) as L2 by (rewrite E1, app_length; reflexivity).
  eapply post_weaken; [apply (more_items_sound _ [x] e1); [apply past_good|exact Hn1|apply J_past; exact J1|rewrite past_rest; lia|unfold items_fuel; lia]|].
  intros e2 s2 (ys & u & r & Hu & J2 & R2 & M2). exists (x :: ys), (t ++ b1 ++ u), r. split; [|split; [exact J2|split; [exact R2|]]].
  - apply list_tail. exists t, b1, u. auto.
  - eapply moved_trans in M2; [|eapply moved_trans; [exact M1|apply moved_past; exact E1]]. rewrite <- !app_assoc in M2. exact M2.
Qed.
End Sound.
End Loop.

(** ** Lists in parentheses, or the word EMPTY *)
Lemma trace_bind_assoc {A B C} (p : prog A) (f : A -> prog B) (g : B -> prog C) :
  trace (pbind (pbind p f) g) = trace (pbind p (fun a => pbind (f a) g)).
Proof.
  rewrite !trace_bind. destruct (trace p) as [e [a|c| |]]; try reflexivity. rewrite !trace_bind.
  destruct (trace (f a)) as [e2 [b|c| |]]; try reflexivity. destruct (trace (g b)) as [e3 o]. rewrite app_assoc. reflexivity.
Qed.

Section Body.
Context {A : Type}.
Variable R : A -> bytes -> Prop.
Variable E : list A -> list event -> Prop.
Variable pre : rst -> Prop.
Variable bound : nat.
Variable lst : rst -> prog rst.
Hypothesis E_nil : E [] [].
Hypothesis pre_past : forall s t r, pre s -> pre (past s t r).

Lemma empty_or_complete :
  (forall xs s u r, good s -> pre s -> (length (r_rest s) < bound)%nat -> r_rest s = u ++ $")" ++ r -> list_text R xs u ->
     exists e s', trace (lst s) = (e, Ok s') /\ E xs e /\ pre s' /\ moved s (u ++ $")") s') ->
  (forall x t r, R x t -> no_space (t ++ r)) ->
  forall xs s b t r, good s -> pre s -> (length (r_rest s) <= bound)%nat -> blank b -> r_rest s = b ++ t ++ r -> empty_or_text R xs t -> word_end r ->
  exists e s', trace (empty_or lst s) = (e, Ok s') /\ E xs e /\ pre s' /\ moved s (b ++ t) s'.
Proof.
  intros Hl solid xs s b t r Hg Hp Hbd Hb Hr Ht Hw.
  assert (no_space (t ++ r)) as Hn by (destruct Ht as [[_ ->]|(b' & u & _ & _ & ->)]; reflexivity).
  unfold empty_or. rewrite (skip_space_ok s b (t ++ r) Hg Hr Hb Hn), trace_ret_bind.
  rewrite (peek_ok _ (past_good _ _ _)), past_rest, trace_ret_bind. set (s1 := past s b (t ++ r)).
  destruct Ht as [[-> ->]|(b' & u & Hb' & Hu & ->)].
  - change (hd 0%N ($"EMPTY" ++ r) =? chr_open)%N with false. cbv iota. rewrite (assert_empty_ok s1 r (past_good _ _ _) (past_rest _ _ _) Hw).
    unfold s1. rewrite past_past. eexists [], _. split; [reflexivity|]. split; [exact E_nil|]. split; [apply pre_past; exact Hp|].
    apply moved_past. rewrite <- app_assoc. exact Hr.
  - change (hd 0%N (($"(" ++ b' ++ u ++ $")") ++ r) =? chr_open)%N with true. cbv iota.
    assert (r_rest s = b ++ $"(" ++ b' ++ u ++ $")" ++ r) as Hr' by (rewrite Hr, <- !app_assoc; reflexivity).
    assert (no_space (u ++ $")" ++ r)) as Hnu.
    { destruct xs as [|x xs]; [contradiction|]. apply list_tail in Hu as (t1 & b1 & v & H1 & _ & _ & ->). rewrite <- app_assoc. apply (solid x); exact H1. }
    unfold s1. rewrite <- !app_assoc. rewrite (radvance_ok _ $"(" (b' ++ u ++ $")" ++ r) (past_good _ _ _) (past_rest _ _ _)), trace_ret_bind, past_past.
    rewrite (skip_space_ok _ b' (u ++ $")" ++ r) (past_good _ _ _) (past_rest _ _ _) Hb' Hnu), trace_ret_bind, past_past.
    set (s2 := past s _ _).
    assert (moved s ((b ++ $"(") ++ b') s2) as M1 by (apply moved_past; rewrite Hr', <- !app_assoc; reflexivity).
    pose proof (moved_length _ _ _ M1) as L1. rewrite !app_length in L1. change (length $"(") with 1%nat in L1.
    destruct (Hl xs s2 u r) as (e & s3 & T & He & Hp3 & M2); [apply past_good|apply pre_past; exact Hp|lia|reflexivity|exact Hu|].
    exists e, s3. split; [exact T|]. split; [exact He|]. split; [exact Hp3|]. eapply moved_trans in M2; [|exact M1]. rewrite <- !app_assoc in M2. exact M2.
Qed.

Lemma empty_or_sound :
  (forall s, good s -> no_space (r_rest s) -> pre s -> (length (r_rest s) < bound)%nat -> (exists b b0, blank b /\ r_before s = rev b ++ $"(" ++ b0) ->
     post (lst s) (fun e s' => exists xs u b, blank b /\ list_text R xs u /\ E xs e /\ pre s' /\ moved s (b ++ u ++ $")") s')) ->
  forall s, good s -> pre s -> (length (r_rest s) <= bound)%nat ->
  post (empty_or lst s) (fun e s' => exists xs b t, blank b /\ empty_or_text R xs t /\ E xs e /\ pre s' /\ moved s (b ++ t) s').
Proof.
  intros Hl s Hg Hp Hbd. unfold empty_or. destruct (skip_space_any s Hg) as (b & r1 & E1 & Hb & Hn & ->). rewrite trace_ret_bind.
  rewrite (peek_ok _ (past_good _ _ _)), past_rest, trace_ret_bind. destruct (N.eqb_spec (hd 0%N r1) chr_open) as [Eo|Eo].
  - destruct r1 as [|c r1]; [discriminate Eo|]. cbn in Eo. subst c.
    rewrite (radvance_ok _ $"(" r1 (past_good _ _ _) (past_rest _ _ _)), trace_ret_bind, past_past.
    destruct (skip_space_any (past s (b ++ $"(") r1) (past_good _ _ _)) as (b' & r2 & E2 & Hb' & Hn2 & ->). rewrite trace_ret_bind, past_past.
    rewrite past_rest in E2. set (s2 := past s _ _).
    assert (moved s ((b ++ $"(") ++ b') s2) as M1 by (apply moved_past; rewrite E1, E2, <- !app_assoc; reflexivity).
    pose proof (moved_length _ _ _ M1) as L1. rewrite !app_length in L1. change (length $"(") with 1%nat in L1.
    eapply post_weaken; [apply Hl; [apply past_good|exact Hn2|apply pre_past; exact Hp|lia|]|].
    { exists b', (rev b ++ r_before s). split; [exact Hb'|]. unfold s2. rewrite past_before, !rev_app_distr, <- !app_assoc. reflexivity. }
    intros e s3 (xs & u & b3 & Hb3 & Hu & He & Hp3 & M2). exists xs, b, ($"(" ++ (b' ++ b3) ++ u ++ $")"). split; [exact Hb|].
    split; [right; exists (b' ++ b3), u; split; [apply blank_app; auto|auto]|]. split; [exact He|]. split; [exact Hp3|].
    eapply moved_trans in M2; [|exact M1]. rewrite <- !app_assoc in *. exact M2.
  - destruct (assert_empty_any (past s b r1) (past_good _ _ _)) as [(r & E2 & _ & ->)| ->]; [|apply post_err]. apply post_ret. rewrite past_rest in E2.
    exists [], b, $"EMPTY". split; [exact Hb|]. split; [left; auto|]. split; [exact E_nil|]. split; [apply pre_past, pre_past; exact Hp|].
    rewrite past_past. apply moved_past. rewrite E1, E2, <- app_assoc. reflexivity.
Qed.
End Body.

(** Lists of items that keep [pre]. *)
Section Items.
Context {A : Type}.
Variable R : A -> bytes -> Prop.
Variable E1 : A -> list event -> Prop.
Variable E : list A -> list event -> Prop.
Variable pre : rst -> Prop.
Variable bound : nat.
Variable item : rst -> prog rst.
Hypothesis E_nil : E [] [].
Hypothesis E_snoc : forall xs x e e1, E xs e -> E1 x e1 -> E (xs ++ [x]) (e ++ e1).
Hypothesis pre_past : forall s t r, pre s -> pre (past s t r).

Let J (xs : list A) (e : list event) (s : rst) : Prop := E xs e /\ pre s.

Definition item_complete : Prop :=
  forall x s t r, good s -> pre s -> (length (r_rest s) < bound)%nat -> r_rest s = t ++ r -> R x t -> word_end r ->
  exists e s', trace (item s) = (e, Ok s') /\ E1 x e /\ pre s' /\ moved s t s'.
Definition item_sound : Prop :=
  forall s, good s -> no_space (r_rest s) -> pre s -> (length (r_rest s) < bound)%nat ->
  post (item s) (fun e s' => exists x t, R x t /\ E1 x e /\ pre s' /\ moved s t s').

Lemma read_items_trace s : trace (read_items item s) =
  trace (pbind (let! s := item s in let! s := Ret (skip_space s) in more_items (items_fuel s) item s) (fun s => Ret (radvance s 1))).
Proof.
  unfold read_items. rewrite trace_bind_assoc, !trace_bind. destruct (trace (item s)) as [e [a|c| |]]; try reflexivity.
  rewrite trace_bind_assoc. reflexivity.
Qed.

Lemma read_items_complete : item_complete -> (forall x t r, R x t -> no_space (t ++ r)) ->
  forall xs s u r, good s -> pre s -> (length (r_rest s) < bound)%nat -> r_rest s = u ++ $")" ++ r -> list_text R xs u ->
  exists e s', trace (read_items item s) = (e, Ok s') /\ E xs e /\ pre s' /\ moved s (u ++ $")") s'.
Proof.
  intros Hi solid xs s u r Hg Hp Hb Hr Hu.
  destruct (items_complete R J item bound) with (xs := xs) (s := s) (u := u) (r := r) as (e & s1 & T & [He Hp1] & M); try assumption.
  { intros ? ? ? ? ? [? ?]. split; auto. }
  { intros ys e0 s0 x t r0 Hg0 [He0 Hp0] Hb0 Hr0 Hx Hw. destruct (Hi x s0 t r0) as (e1 & s1 & T & H1 & Hp1 & M); try assumption.
    exists e1, s1. split; [exact T|]. split; [split; [apply E_snoc; assumption|assumption]|exact M]. }
  { split; assumption. }
  pose proof (moved_rest _ _ _ _ M Hr) as R1. pose proof (moved_good _ _ _ M) as G1.
  exists e, (past s1 $")" r). split.
  - rewrite read_items_trace. apply (trace_bind_ret _ _ e s1); [exact T|]. change 1%nat with (length $")"). rewrite (radvance_ok s1 $")" r G1 R1). reflexivity.
  - split; [exact He|]. split; [apply pre_past; exact Hp1|]. eapply moved_trans; [exact M|apply moved_past; exact R1].
Qed.
Lemma read_items_sound : item_sound ->
  forall s, good s -> no_space (r_rest s) -> pre s -> (length (r_rest s) < bound)%nat ->
  post (read_items item s) (fun e s' => exists xs u, list_text R xs u /\ E xs e /\ pre s' /\ moved s (u ++ $")") s').
Proof.
  intros Hi s Hg Hn Hp Hb. unfold post. rewrite read_items_trace. fold (post (pbind (let! s := item s in let! s := Ret (skip_space s) in more_items (items_fuel s) item s) (fun s => Ret (radvance s 1)))
    (fun e s' => exists xs u, list_text R xs u /\ E xs e /\ pre s' /\ moved s (u ++ $")") s')).
  apply post_bind. eapply post_weaken; [apply (items_sound R J item bound); try assumption|].
  { intros ? ? ? ? ? [? ?]. split; auto. }
  { intros xs e0 s0 Hg0 Hn0 [He0 Hp0] Hb0. eapply post_weaken; [apply Hi; assumption|]. intros e1 s1 (x & t & H & H1 & Hp1 & M).
    exists x, t. split; [exact H|]. split; [split; [apply E_snoc; assumption|assumption]|exact M]. }
  { split; assumption. }
  intros e s1 (xs & u & r & Hu & [He Hp1] & R1 & M). change 1%nat with (length $")"). rewrite (radvance_ok s1 $")" r (moved_good _ _ _ M) R1). apply post_ret. rewrite app_nil_r.
  exists xs, u. split; [exact Hu|]. split; [exact He|]. split; [apply pre_past; exact Hp1|]. eapply moved_trans; [exact M|apply moved_past; exact R1].
Qed.

Lemma body_complete : item_complete -> (forall x t r, R x t -> no_space (t ++ r)) ->
  forall xs s b t r, good s -> pre s -> (length (r_rest s) <= bound)%nat -> blank b -> r_rest s = b ++ t ++ r -> empty_or_text R xs t -> word_end r ->
  exists e s', trace (empty_or (read_items item) s) = (e, Ok s') /\ E xs e /\ pre s' /\ moved s (b ++ t) s'.
Proof.
  intros Hi solid. apply (empty_or_complete R E pre bound); try assumption. intros. eapply read_items_complete; eassumption.
Qed.
Lemma body_sound : item_sound -> forall s, good s -> pre s -> (length (r_rest s) <= bound)%nat ->
  post (empty_or (read_items item) s) (fun e s' => exists xs b t, blank b /\ empty_or_text R xs t /\ E xs e /\ pre s' /\ moved s (b ++ t) s').
Proof.
  intros Hi. apply (empty_or_sound R E pre bound); try assumption. intros s Hg Hn Hp Hb _. eapply post_weaken; [apply read_items_sound; assumption|].
  intros e s' (xs & u & Hu & He & Hp' & M). exists xs, u, []. split; [constructor|]. auto.
Qed.
End Items.
