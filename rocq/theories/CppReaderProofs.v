(** * Sessions of reader objects *)
From Verif Require Import Base BaseFacts TypesModel GeomSpec VisitorModel VisitorSpec ArrowModel NativeSpec WktGrammar SerialSpec WktSpec WktReaderModel ArrayReaderModel ArrayReaderProofs CppWkbModel CppWriterModel CppReaderModel CppReaderSpec.
Local Open Scope Z_scope.

Lemma among_in i l : among i l = true <-> In i l.
Proof. unfold among. rewrite existsb_exists. split; [intros (x & H & E); apply Nat.eqb_eq in E; subst; exact H|intros H; exists i; split; [exact H|apply Nat.eqb_refl]]. Qed.
Lemma among_out i l : ~ In i l -> among i l = false.
Proof. intros H. destruct (among i l) eqn:E; [apply among_in in E; contradiction|reflexivity]. Qed.

Lemma nodup_snoc (l : list nat) i : NoDup l -> ~ In i l -> NoDup (l ++ [i]).
Proof. intros H Hi. apply NoDup_Add with (a := i) (l := l); [|split; assumption]. rewrite <- (app_nil_r l) at 1. apply Add_app. Qed.

Section Sessions.
  Variable arrays : nat -> arrow_array.
  Variable parse : bytes -> option N.
  Variable st : nat -> Z -> rst.
  Variable sw : nat -> Z -> bool.

  (** ** Ownership *)
  Record owned (o : reader_object) : Prop := {
    ow_once : NoDup (ro_released o);
    ow_moved : incl (ro_released o) (ro_moved o);
    ow_held : forall i, ro_held o = Some i -> In i (ro_moved o) /\ ~ In i (ro_released o)
  }.

  Lemma non_owning_frame o i o' : cpp_set_array_non_owning arrays o i = Ok o' -> ro_held o' = ro_held o /\ ro_moved o' = ro_moved o /\ ro_released o' = ro_released o.
  Proof.
    unfold cpp_set_array_non_owning. destruct (among i (ro_released o)); [discriminate|]. destruct (reader_set_array (ro_reader o) (arrays i)); try discriminate; intros E; injection E as <-; auto.
  Qed.

  Lemma step_owned j o c vs o' : owned o -> reader_step arrays parse st sw j o c = Ok (vs, o') ->
    owned o' /\ ro_released o' = ro_released o ++ released_by_user [c] /\ ro_held o' = match given [c] with [i] => Some i | _ => ro_held o end.
  Proof.
    intros [H1 H2 H3]. destruct c as [i|i|off len|i]; cbn [reader_step given released_by_user flat_map app]; rewrite ?app_nil_r.
    - destruct (among i (ro_moved o)) eqn:E; [discriminate|]. assert (~ In i (ro_moved o)) as Hi by (rewrite <- among_in; congruence).
      unfold cpp_set_array. destruct (cpp_set_array_non_owning _ _ _) as [o1| | |] eqn:E1; try discriminate. cbn [obind]. intros H. injection H as _ <-.
      apply non_owning_frame in E1. cbn [ro_held ro_moved ro_released] in E1. destruct E1 as (Eh & Em & Er). split; [|split; [exact Er|exact Eh]].
      split; rewrite ?Er, ?Em, ?Eh; [exact H1|intros x Hx; right; apply H2; exact Hx|]. intros x Hx. injection Hx as <-. split; [left; reflexivity|]. intros Hr. apply Hi. apply H2. exact Hr.
    - destruct (among i (ro_moved o)); [discriminate|]. destruct (cpp_set_array_non_owning _ _ _) as [o1| | |] eqn:E1; try discriminate. cbn [obind]. intros H. injection H as _ <-.
      apply non_owning_frame in E1. destruct E1 as (Eh & Em & Er). split; [|split; [exact Er|exact Eh]]. split; rewrite ?Er, ?Em, ?Eh; assumption.
    - intros H. injection H as _ <-. split; [split; assumption|split; reflexivity].
    - destruct (among i (ro_moved o)) eqn:E; [discriminate|]. assert (~ In i (ro_moved o)) as Hi by (rewrite <- among_in; congruence).
      intros H. injection H as _ <-. cbn [ro_held ro_moved ro_released]. split; [|split; reflexivity]. split; cbn [ro_held ro_moved ro_released].
      + apply nodup_snoc; [exact H1|]. intros Hx. apply Hi. apply H2. exact Hx.
      + intros x Hx. apply in_app_iff in Hx. destruct Hx as [Hx|[<-|[]]]; [right; apply H2; exact Hx|left; reflexivity].
      + intros x Hx. destruct (H3 x Hx) as [Hm Hr]. split; [right; exact Hm|]. intros Hx'. apply in_app_iff in Hx'. destruct Hx' as [Hx'|[<-|[]]]; contradiction.
  Qed.

  Lemma calls_owned calls : forall j o vs o', owned o -> reader_calls arrays parse st sw j o calls = Ok (vs, o') ->
    owned o' /\ ro_released o' = ro_released o ++ released_by_user calls /\ ro_held o' = match rev (given calls) with i :: _ => Some i | [] => ro_held o end.
  Proof.
    induction calls as [|c calls IH]; intros j o vs o' Ho E; cbn [reader_calls] in E.
    - injection E as _ <-. cbn. rewrite app_nil_r. auto.
    - destruct (reader_step arrays parse st sw j o c) as [[v o1]| | |] eqn:E1; cbn [obind] in E; try discriminate.
      destruct (reader_calls arrays parse st sw (S j) o1 calls) as [[vs1 o2]| | |] eqn:E2; cbn [obind] in E; try discriminate. injection E as _ <-.
      destruct (step_owned _ _ _ _ _ Ho E1) as (Ho1 & Er & Eh). destruct (IH _ _ _ _ Ho1 E2) as (Ho2 & Er2 & Eh2). split; [exact Ho2|]. split.
      + rewrite Er2, Er, <- app_assoc. f_equal. unfold released_by_user. cbn [flat_map]. rewrite app_nil_r. reflexivity.
      + rewrite Eh2, Eh. destruct c as [i|i|off len|i]; cbn [given flat_map app]; try reflexivity. fold (given calls). cbn [rev]. destruct (rev (given calls)); reflexivity.
  Qed.

  Theorem session_released t calls visits released : reader_session arrays parse st sw t calls = Ok (visits, released) ->
    NoDup released /\ released = released_by_user calls ++ last_of (given calls).
  Proof.
    unfold reader_session. destruct (new_reader t) as [o| | |] eqn:En; cbn [obind]; try discriminate.
    destruct (reader_calls arrays parse st sw 0 o calls) as [[vs o']| | |] eqn:E; cbn [obind]; try discriminate. intros H. injection H as <- <-.
    unfold new_reader in En. destruct (throw_not_ok (reader_init t)) as [r| | |]; cbn [obind] in En; try discriminate. injection En as <-.
    apply calls_owned in E; [|split; cbn; [constructor|intros x []|discriminate]]. cbn [ro_released ro_held app] in E. destruct E as ([H1 H2 H3] & Er & Eh).
    unfold cpp_destroy. rewrite Eh, Er in *. unfold last_of. destruct (rev (given calls)) as [|i l].
    - rewrite app_nil_r. split; [exact H1|reflexivity].
    - split; [|reflexivity]. apply nodup_snoc; [exact H1|]. intros Hx. exact (proj2 (H3 i eq_refl) Hx).
  Qed.

  Lemma given_moved calls : forall j o vs o', reader_calls arrays parse st sw j o calls = Ok (vs, o') ->
    NoDup (given calls ++ released_by_user calls) /\ forall i, In i (given calls ++ released_by_user calls) -> ~ In i (ro_moved o).
  Proof.
    induction calls as [|c calls IH]; intros j o vs o' E; cbn [reader_calls] in E; [split; [constructor|intros i []]|].
    destruct (reader_step arrays parse st sw j o c) as [[v o1]| | |] eqn:E1; cbn [obind] in E; try discriminate.
    destruct (reader_calls arrays parse st sw (S j) o1 calls) as [[vs1 o2]| | |] eqn:E2; cbn [obind] in E; try discriminate. destruct (IH _ _ _ _ E2) as (Hn & Hm).
    destruct c as [i|i|off len|i]; cbn [reader_step] in E1.
    - destruct (among i (ro_moved o)) eqn:Ea; [discriminate|]. assert (~ In i (ro_moved o)) as Hi by (rewrite <- among_in; congruence).
      unfold cpp_set_array in E1. destruct (cpp_set_array_non_owning _ _ _) as [o3| | |] eqn:E3; try discriminate. injection E1 as _ <-. apply non_owning_frame in E3. destruct E3 as (_ & Em & _). cbn [ro_moved] in Em.
      rewrite Em in Hm. change (given (RSetArray i :: calls)) with (i :: given calls). change (released_by_user (RSetArray i :: calls)) with (released_by_user calls). cbn [app].
      split; [constructor; [intros Hx; apply (Hm i Hx); left; reflexivity|exact Hn]|]. intros x [<-|Hx]; [exact Hi|]. intros Hx'. apply (Hm x Hx). right. exact Hx'.
    - destruct (among i (ro_moved o)); [discriminate|]. destruct (cpp_set_array_non_owning _ _ _) as [o3| | |] eqn:E3; try discriminate. injection E1 as _ <-. apply non_owning_frame in E3.
      destruct E3 as (_ & Em & _). rewrite Em in Hm. split; [exact Hn|exact Hm].
    - injection E1 as _ <-. split; [exact Hn|exact Hm].
    - destruct (among i (ro_moved o)) eqn:Ea; [discriminate|]. assert (~ In i (ro_moved o)) as Hi by (rewrite <- among_in; congruence). injection E1 as _ <-. cbn [ro_moved] in Hm.
      change (given (RRelease i :: calls)) with (given calls). change (released_by_user (RRelease i :: calls)) with (i :: released_by_user calls).
      split; [apply NoDup_Add with (a := i) (l := given calls ++ released_by_user calls); [apply Add_app|split; [exact Hn|intros Hx; apply (Hm i Hx); left; reflexivity]]|].
      intros x Hx. apply in_app_iff in Hx. intros Hx'. destruct Hx as [Hx|[<-|Hx]]; [|contradiction|]; (apply (Hm x); [apply in_app_iff; tauto|right; exact Hx']).
  Qed.

  (** All arrays but the last of those that are given are never released. *)
  Theorem session_leaks t calls visits released : reader_session arrays parse st sw t calls = Ok (visits, released) ->
    forall l i j, given calls = l ++ [j] -> In i l -> ~ In i released.
  Proof.
    intros E l i j Hg Hi Hr. destruct (session_released _ _ _ _ E) as (_ & Hrel). unfold reader_session in E. destruct (new_reader t) as [o| | |]; cbn [obind] in E; try discriminate.
    destruct (reader_calls arrays parse st sw 0 o calls) as [[vs o']| | |] eqn:E1; cbn [obind] in E; try discriminate. destruct (given_moved _ _ _ _ _ E1) as (Hn & _).
    rewrite Hrel, Hg in *. unfold last_of in Hr. rewrite rev_app_distr in Hr. cbn [rev app] in Hr. rewrite <- app_assoc in Hn. cbn [app] in Hn.
    apply in_split in Hi. destruct Hi as (l1 & l2 & ->). rewrite <- app_assoc in Hn. cbn [app] in Hn. apply NoDup_remove in Hn. destruct Hn as [_ Hn]. apply Hn.
    rewrite !in_app_iff. cbn [In]. apply in_app_iff in Hr. destruct Hr as [Hr|[<-|[]]]; tauto.
  Qed.

  (** ** Visits *)
  Variable t : Z.
  Variable features : nat -> list (option geom).
  Hypothesis Hp : number_parser parse.
  Hypothesis Harrays : forall i, features_array parse t (arrays i) (features i).

  Definition pointing (o : reader_object) (gone : list nat) (cur : option nat) : Prop :=
    reader_history t (ro_reader o) /\ ro_moved o = gone /\ incl (ro_released o) gone /\
    match cur with
    | Some i => ro_points o = PArray i /\ ~ In i (ro_released o) /\
        forall j off n, (off + n <= length (features i))%nat -> exists evs, trace (reader_visit parse (st j) (sw j) (ro_reader o) (Z.of_nat off) (Z.of_nat n)) = (evs, Ok tt) /\
          features_events (window (features i) off n) evs
    | None => True
    end.

  Lemma set_pointing o gone cur i : pointing o gone cur -> ~ In i (ro_released o) -> forall held moved, incl (ro_released o) moved ->
    exists o', cpp_set_array_non_owning arrays (ReaderObject (ro_reader o) (ro_points o) held moved (ro_released o)) i = Ok o' /\ pointing o' moved (Some i).
  Proof.
    intros (Hh & Hm & Hr & _) Hi held moved Hmoved. destruct (reader_ok parse t (arrays i) (features i) (ro_reader o) Hp (Harrays i) Hh) as (r' & E & _ & Hv).
    eexists. split.
    - unfold cpp_set_array_non_owning. cbn [ro_released ro_reader ro_held ro_moved]. rewrite (among_out _ _ Hi), E. reflexivity.
    - split; [exact (rh_set t _ _ _ Hh E)|]. split; [reflexivity|]. split; [exact Hmoved|]. split; [reflexivity|]. split; [exact Hi|]. intros j off n Hon. apply Hv. exact Hon.
  Qed.

  Lemma calls_read gone cur calls expected : reads features gone cur calls expected -> forall j o, pointing o gone cur ->
    exists visits o', reader_calls arrays parse st sw j o calls = Ok (visits, o') /\
      Forall2 (fun fs visit => exists evs, trace visit = (evs, Ok tt) /\ features_events fs evs) expected visits.
  Proof.
    intros H. induction H as [gone cur|gone cur i calls expected Hi _ IH|gone cur i calls expected Hi _ IH|gone i off n calls expected Hon _ IH|gone cur i calls expected Hi _ IH]; intros j o Ho; pose proof Ho as (Hh & Hm & Hr & Hc).
    - exists [], o. split; [reflexivity|constructor].
    - destruct (set_pointing o gone cur i Ho (fun x => Hi (Hr _ x)) (Some i) (i :: gone) ltac:(intros x Hx; right; apply Hr; exact Hx)) as (o1 & E1 & P1).
      destruct (IH (S j) o1 P1) as (visits & o2 & E2 & H2). exists visits, o2. split; [|exact H2]. cbn [reader_calls reader_step]. unfold cpp_set_array. rewrite Hm, (among_out _ _ Hi), E1. cbn [obind]. rewrite E2. reflexivity.
    - destruct (set_pointing o gone cur i Ho (fun x => Hi (Hr _ x)) (ro_held o) (ro_moved o) ltac:(rewrite Hm; exact Hr)) as (o1 & E1 & P1). rewrite Hm in P1.
      destruct (IH (S j) o1 P1) as (visits & o2 & E2 & H2). exists visits, o2. split; [|exact H2]. cbn [reader_calls reader_step]. rewrite Hm, (among_out _ _ Hi). rewrite Hm in E1.
      replace (ReaderObject (ro_reader o) (ro_points o) (ro_held o) gone (ro_released o)) with o in E1 by (destruct o; cbn in Hm |- *; subst; reflexivity). rewrite E1. cbn [obind]. rewrite E2. reflexivity.
    - destruct (IH (S j) o Ho) as (visits & o2 & E2 & H2). destruct Hc as (Hpt & Hnr & Hv). eexists. exists o2. split; [cbn [reader_calls reader_step obind]; rewrite E2; reflexivity|].
      cbn [app]. constructor; [|exact H2]. unfold cpp_visit. rewrite Hpt, (among_out _ _ Hnr). apply Hv. exact Hon.
    - set (o1 := ReaderObject (ro_reader o) (ro_points o) (ro_held o) (i :: gone) (ro_released o ++ [i])). destruct (IH (S j) o1) as (visits & o2 & E2 & H2).
      + split; [exact Hh|]. split; [reflexivity|]. split; [intros x Hx; apply in_app_iff in Hx; destruct Hx as [Hx|[<-|[]]]; [right; apply Hr; exact Hx|left; reflexivity]|].
        destruct cur as [c|]; [|exact I]. destruct (Nat.eqb_spec c i) as [->|Hne]; [exact I|]. destruct Hc as (Hpt & Hnr & Hv). split; [exact Hpt|]. split; [|exact Hv].
        intros Hx. apply in_app_iff in Hx. destruct Hx as [Hx|[Hx|[]]]; [contradiction|congruence].
      + exists visits, o2. split; [|exact H2]. cbn [reader_calls reader_step]. rewrite Hm, (among_out _ _ Hi). cbn [obind]. fold o1. rewrite E2. reflexivity.
  Qed.

  Theorem session_read r0 calls expected : reader_init t = Ok r0 -> reads features [] None calls expected ->
    exists visits released, reader_session arrays parse st sw t calls = Ok (visits, released) /\
      Forall2 (fun fs visit => exists evs, trace visit = (evs, Ok tt) /\ features_events fs evs) expected visits.
  Proof.
    intros Hr Hc. destruct (calls_read _ _ _ _ Hc 0%nat (ReaderObject r0 PNothing None [] [])) as (visits & o' & E & H).
    - split; [apply rh_init; exact Hr|]. split; [reflexivity|]. split; [intros x []|exact I].
    - eexists. eexists. split; [|exact H]. unfold reader_session, new_reader. rewrite Hr. cbn [throw_not_ok obind]. rewrite E. reflexivity.
  Qed.
End Sessions.
