(** * Infinities and not-a-numbers *)
From Verif Require Import Base BaseFacts Text RyuSpec FastFloatModel FastFloatSpec.
Local Open Scope N_scope.

Lemma lor_32 c : N.lor c 32 = if N.testbit c 5 then c else c + 32.
Proof.
  destruct (N.testbit c 5) eqn:E.
  - apply N.bits_inj. intros i. rewrite N.lor_spec. change 32 with (2 ^ 5). rewrite N.pow2_bits_eqb. destruct (N.eqb_spec 5 i) as [<-|]; [rewrite E; reflexivity|apply orb_false_r].
  - assert (N.land c 32 = 0) as L.
    { apply N.bits_inj. intros i. rewrite N.land_spec, N.bits_0. change 32 with (2 ^ 5). rewrite N.pow2_bits_eqb. destruct (N.eqb_spec 5 i) as [<-|]; [rewrite E; reflexivity|apply andb_false_r]. }
    rewrite N.add_nocarry_lxor by exact L. symmetry. apply N.lxor_lor. exact L.
Qed.
Definition lower (w : N) : Prop := 97 <= w <= 122.
Lemma letter_spec c w : lower w -> (N.lor c 32 = w <-> c = w \/ c + 32 = w).
Proof.
  intros Hw. rewrite lor_32. unfold lower in Hw. split.
  - destruct (N.testbit c 5); intros H; [left|right]; exact H.
  - rewrite N.testbit_eqb. change (2 ^ 5) with 32. intros [->|H].
    + assert (w / 32 = 3) as -> by (symmetry; apply N.div_unique with (w - 96); lia). reflexivity.
    + assert (c / 32 = 2) as -> by (symmetry; apply N.div_unique with (c - 64); lia). exact H.
Qed.
Lemma same_letters_spec word : Forall lower word -> forall t, same_letters t word = true <-> exists u r, t = u ++ r /\ same_word u word.
Proof.
  induction word as [|w word IH]; intros Hw t.
  - split; [intros _; exists [], t; split; [reflexivity|exact I]|intros _; destruct t; reflexivity].
  - apply Forall_cons_iff in Hw. destruct Hw as [H1 Hw]. destruct t as [|c t].
    + split; [discriminate|]. intros (u & r & E & S). symmetry in E. apply app_eq_nil in E. destruct E as [-> _]. destruct S.
    + cbn [same_letters]. rewrite andb_true_iff, N.eqb_eq, (letter_spec c w H1), (IH Hw). split.
      * intros [C (u & r & -> & S)]. exists (c :: u), r. split; [reflexivity|]. split; assumption.
      * intros (u & r & E & S). destruct u as [|c' u]; [destruct S|]. injection E as <- ->. destruct S as [C S]. split; [exact C|]. exists u, r. split; [reflexivity|exact S].
Qed.
Lemma same_word_length word : forall u, same_word u word -> length u = length word.
Proof. induction word as [|w word IH]; intros [|c u] H; try destruct H; [reflexivity|]. cbn [length]. f_equal. apply IH. assumption. Qed.
Lemma same_word_app a b : forall u, same_word u (a ++ b) <-> exists v w, u = v ++ w /\ same_word v a /\ same_word w b.
Proof.
  induction a as [|x a IH]; intros u.
  - cbn [app]. split; [intros H; exists [], u; repeat split; exact H|]. intros (v & w & -> & H1 & H2). destruct v; [exact H2|destruct H1].
  - cbn [app]. destruct u as [|c u].
    + split; [intros []|]. intros (v & w & E & H1 & _). symmetry in E. apply app_eq_nil in E. destruct E as [-> _]. destruct H1.
    + cbn [same_word]. rewrite IH. split.
      * intros [C (v & w & -> & H1 & H2)]. exists (c :: v), w. repeat split; assumption.
      * intros (v & w & E & H1 & H2). destruct v as [|c' v]; [destruct H1|]. injection E as <- ->. destruct H1 as [C H1]. split; [exact C|]. exists v, w. repeat split; assumption.
Qed.

Lemma nan_sequence_spec p r : nan_sequence p = Some r <-> exists chars, p = chars ++ $")" ++ r /\ Forall is_word_char chars.
Proof.
  induction p as [|c p IH].
  - split; [discriminate|]. intros (chars & E & _). destruct chars; discriminate.
  - cbn [nan_sequence]. destruct (N.eqb_spec c 41) as [->|Hc].
    + split.
      * intros H. injection H as ->. exists []. split; [reflexivity|constructor].
      * intros (chars & E & F). destruct chars as [|d chars]; [injection E as ->; reflexivity|]. injection E as <- _. apply Forall_cons_iff in F. destruct F as [F _]. unfold is_word_char in F. lia.
    + set (w := (97 <=? c) && (c <=? 122) || (65 <=? c) && (c <=? 90) || (48 <=? c) && (c <=? 57) || (c =? 95)).
      assert (w = true <-> is_word_char c) as Hw.
      { unfold w, is_word_char. rewrite !orb_true_iff, !andb_true_iff, !N.leb_le, N.eqb_eq. lia. }
      destruct w.
      * rewrite IH. split; intros (chars & E & F).
        -- exists (c :: chars). rewrite E. split; [reflexivity|]. constructor; [apply Hw; reflexivity|exact F].
        -- destruct chars as [|d chars]; [exfalso; apply Hc; injection E as -> _; reflexivity|]. injection E as <- E. exists chars. apply Forall_cons_iff in F. split; [exact E|apply F].
      * split; [discriminate|]. intros (chars & E & F). exfalso. destruct chars as [|d chars]; [apply Hc; injection E as -> _; reflexivity|]. injection E as <- _.
        apply Forall_cons_iff in F. destruct F as [F _]. apply Hw in F. discriminate.
Qed.

(** ** Words after the sign *)

Inductive body : bytes -> N -> Prop :=
  | body_inf u : same_word u $"inf" -> body u (2047 * 2 ^ 52)
  | body_infinity u : same_word u $"infinity" -> body u (2047 * 2 ^ 52)
  | body_nan u : same_word u $"nan" -> body u (2047 * 2 ^ 52 + 2 ^ 51)
  | body_nan_with u chars : same_word u $"nan" -> Forall is_word_char chars -> body (u ++ $"(" ++ chars ++ $")") (2047 * 2 ^ 52 + 2 ^ 51).
Lemma word_body text negative bits : word_text text negative bits <-> exists u, text = minus negative ++ u /\ body u bits.
Proof.
  split.
  - intros [neg word [H|H]|neg word H|neg word chars H F]; eexists; (split; [reflexivity|]); [apply body_inf|apply body_infinity|apply body_nan|apply body_nan_with]; assumption.
  - intros (u & -> & [v H|v H|v H|v chars H F]); [apply an_infinity; left|apply an_infinity; right|apply not_a_number|apply not_a_number_with]; assumption.
Qed.
Lemma body_start u bits : body u bits -> exists c q, u = c :: q /\ (c <> 45) /\ (N.lor c 32 = 105 \/ N.lor c 32 = 110).
Proof.
  assert (forall v w word, same_word v (w :: word) -> lower w -> exists c q, v = c :: q /\ c <> 45 /\ N.lor c 32 = w) as G.
  { intros v w word H Hw. destruct v as [|c v]; [destruct H|]. destruct H as [C _]. exists c, v. split; [reflexivity|]. unfold lower in *. split; [lia|]. apply letter_spec; [exact Hw|exact C]. }
  assert (lower 105 /\ lower 110) as [Li Ln] by (unfold lower; lia).
  intros [v H|v H|v H|v chars H F].
  - destruct (G v 105 _ H Li) as (c & q & -> & H1 & H2). exists c, q. repeat split; [exact H1|left; exact H2].
  - destruct (G v 105 _ H Li) as (c & q & -> & H1 & H2). exists c, q. repeat split; [exact H1|left; exact H2].
  - destruct (G v 110 _ H Ln) as (c & q & -> & H1 & H2). exists c, q. repeat split; [exact H1|right; exact H2].
  - destruct (G v 110 _ H Ln) as (c & q & -> & H1 & H2). exists c, (q ++ $"(" ++ chars ++ $")"). repeat split; [exact H1|right; exact H2].
Qed.

Lemma app_same_length {A} (a b c d : list A) : a ++ b = c ++ d -> length a = length c -> a = c /\ b = d.
Proof.
  revert c. induction a as [|x a IH]; intros [|y c] E L; try discriminate; [split; [reflexivity|exact E]|]. injection E as -> E. injection L as L. destruct (IH c E L) as [-> ->]. split; reflexivity.
Qed.

Lemma lowers : Forall lower $"nan" /\ Forall lower $"inf" /\ Forall lower $"inity".
Proof. repeat split; repeat constructor; unfold lower; vm_compute; discriminate. Qed.

Lemma infnan_body s : match (if same_letters s $"nan" then
      let first := skipn 3 s in
      Some (0x7FF8000000000000, match first with
        | c :: r => if c =? 40 then match nan_sequence r with Some r => r | None => first end else first
        | [] => first
        end)
    else if same_letters s $"inf" then Some (0x7FF0000000000000, if same_letters (skipn 3 s) $"inity" then skipn 8 s else skipn 3 s)
    else None) with
  | Some (bits, r) => exists u, s = u ++ r /\ body u bits /\ forall u' r' bits', s = u' ++ r' -> body u' bits' -> (length u' <= length u)%nat
  | None => forall u r bits, s = u ++ r -> ~ body u bits
  end.
Proof.
  destruct lowers as (Ln & Li & Ly).
  assert (forall word u r, same_word u word -> u ++ r = s -> length word = 3%nat -> skipn 3 s = r) as Hskip.
  { intros word u r H <- L. apply same_word_length in H. rewrite <- L, <- H, skipn_app, skipn_all, Nat.sub_diag. reflexivity. }
  assert (forall u r, same_word u $"nan" -> s = u ++ r -> forall v, same_word v $"inf" \/ same_word v $"infinity" -> forall r', s = v ++ r' -> False) as Hdis.
  { intros u r Hu Es v Hv r' Ev. destruct (body_start u _ (body_nan u Hu)) as (c & q & Eu & _). destruct u as [|c1 u]; [destruct Hu|]. destruct Hu as [Cu _].
    destruct v as [|c2 v]; [destruct Hv as [[]|[]]|]. assert (c2 = 105 \/ c2 + 32 = 105) as Cv by (destruct Hv as [[C _]|[C _]]; exact C). rewrite Es in Ev. injection Ev as -> _. clear - Cu Cv. change (N_of_ascii "n") with 110 in *. lia. }
  destruct (same_letters s $"nan") eqn:En.
  - apply (same_letters_spec _ Ln) in En. destruct En as (u & r & Es & Hu). cbv zeta. rewrite (Hskip $"nan" u r Hu (eq_sym Es) eq_refl).
    assert (forall u' r' bits', s = u' ++ r' -> body u' bits' -> u' = u \/ exists chars, u' = u ++ $"(" ++ chars ++ $")" /\ r = $"(" ++ chars ++ $")" ++ r' /\ Forall is_word_char chars) as Hinv.
    { intros u' r' bits' Es' B; revert Es'; destruct B as [v H|v H|v H|v chars H F]; intros Es'.
      - exfalso. exact (Hdis u r Hu Es v (or_introl H) r' Es').
      - exfalso. exact (Hdis u r Hu Es v (or_intror H) r' Es').
      - left. rewrite Es in Es'. apply app_same_length in Es'; [symmetry; apply Es'|]. rewrite (same_word_length _ _ Hu), (same_word_length _ _ H). reflexivity.
      - right. exists chars. rewrite <- !app_assoc in Es'. rewrite Es in Es'. apply app_same_length in Es'; [|rewrite (same_word_length _ _ Hu), (same_word_length _ _ H); reflexivity].
        destruct Es' as [-> Er]. split; [reflexivity|]. split; [exact Er|exact F]. }
    assert ((forall chars r', r = $"(" ++ chars ++ $")" ++ r' -> ~ Forall is_word_char chars) ->
            exists u0, s = u0 ++ r /\ body u0 0x7FF8000000000000 /\ forall u' r' bits', s = u' ++ r' -> body u' bits' -> (length u' <= length u0)%nat) as Hplain.
    { intros Hno. exists u. split; [exact Es|]. split; [exact (body_nan u Hu)|]. intros u' r' bits' E B. destruct (Hinv u' r' bits' E B) as [->|(chars & _ & Er & F)]; [lia|]. exfalso. exact (Hno chars r' Er F). }
    destruct r as [|c r1]; [apply Hplain; intros chars r' C; discriminate|]. destruct (N.eqb_spec c 40) as [->|Hc].
    2:{ apply Hplain. intros chars r' C _. apply Hc. injection C as -> _. reflexivity. }
    destruct (nan_sequence r1) as [r2|] eqn:Eq.
    + apply nan_sequence_spec in Eq. destruct Eq as (chars & Er & F). exists (u ++ $"(" ++ chars ++ $")"). split; [rewrite Es, Er, <- !app_assoc; reflexivity|].
      split; [exact (body_nan_with u chars Hu F)|]. intros u' r' bits' E B. destruct (Hinv u' r' bits' E B) as [->|(chars' & -> & Er' & F')]; [rewrite app_length; lia|].
      assert (nan_sequence r1 = Some r2) as N1 by (apply nan_sequence_spec; exists chars; split; [exact Er|exact F]).
      injection Er' as Er'. assert (nan_sequence r1 = Some r') as N2 by (apply nan_sequence_spec; exists chars'; split; [exact Er'|exact F']). rewrite N1 in N2. injection N2 as <-.
      rewrite Er in Er'. apply (f_equal (@length N)) in Er'. clear - Er'. cbn [app] in *. rewrite !app_length in *. cbn [length app] in *. change (length $")") with 1%nat in *. change (length $"(") with 1%nat in *. lia.
    + apply Hplain. intros chars r' C F. injection C as C. assert (nan_sequence r1 = Some r') as N2 by (apply nan_sequence_spec; exists chars; split; [exact C|exact F]). congruence.
  - assert (forall u r, s = u ++ r -> ~ same_word u $"nan") as Hnn.
    { intros u r E H. assert (same_letters s $"nan" = true) by (apply (same_letters_spec _ Ln); exists u, r; split; assumption). congruence. }
    destruct (same_letters s $"inf") eqn:Ei.
    + apply (same_letters_spec _ Li) in Ei. destruct Ei as (u & r & Es & Hu). rewrite (Hskip $"inf" u r Hu (eq_sym Es) eq_refl).
      destruct (same_letters r $"inity") eqn:Ey.
      * apply (same_letters_spec _ Ly) in Ey. destruct Ey as (v & r2 & Er & Hv).
        assert (same_word (u ++ v) $"infinity") as Huv by (apply (same_word_app $"inf" $"inity"); exists u, v; repeat split; assumption).
        assert (skipn 8 s = r2) as ->.
        { rewrite Es, Er, app_assoc. pose proof (same_word_length _ _ Huv) as L. change (length $"infinity") with 8%nat in L. rewrite <- L, skipn_app, skipn_all, Nat.sub_diag. reflexivity. }
        exists (u ++ v). split; [rewrite Es, Er, app_assoc; reflexivity|]. split; [exact (body_infinity _ Huv)|]. rewrite (same_word_length _ _ Huv).
        intros u' r' bits' E B; revert E; destruct B as [z H|z H|z H|z chars H F]; intros E; [rewrite (same_word_length _ _ H); vm_compute; lia|rewrite (same_word_length _ _ H); lia|exfalso; exact (Hnn z r' E H)|].
        exfalso. rewrite <- app_assoc in E. exact (Hnn z _ E H).
      * exists u. split; [exact Es|]. split; [exact (body_inf _ Hu)|]. rewrite (same_word_length _ _ Hu).
        intros u' r' bits' E B; revert E; destruct B as [z H|z H|z H|z chars H F]; intros E; [rewrite (same_word_length _ _ H); lia| |exfalso; exact (Hnn z r' E H)|].
        2:{ exfalso. rewrite <- app_assoc in E. exact (Hnn z _ E H). }
        exfalso. apply (same_word_app $"inf" $"inity") in H. destruct H as (a & b & -> & Ha & Hb). rewrite Es, <- app_assoc in E.
        apply app_same_length in E; [|rewrite (same_word_length _ _ Hu), (same_word_length _ _ Ha); reflexivity]. destruct E as [_ E].
        assert (same_letters r $"inity" = true) by (apply (same_letters_spec _ Ly); exists b, r'; split; assumption). congruence.
    + assert (forall u r, s = u ++ r -> ~ same_word u $"inf") as Hni.
      { intros u r E H. assert (same_letters s $"inf" = true) by (apply (same_letters_spec _ Li); exists u, r; split; assumption). congruence. }
      intros u r bits E B; revert E; destruct B as [z H|z H|z H|z chars H F]; intros E.
      * exact (Hni z r E H).
      * apply (same_word_app $"inf" $"inity") in H. destruct H as (a & b & -> & Ha & _). rewrite <- app_assoc in E. exact (Hni a _ E Ha).
      * exact (Hnn z r E H).
      * rewrite <- app_assoc in E. exact (Hnn z _ E H).
Qed.

(** ** Words with their sign *)

Lemma infnan_ok t : match parse_infnan t with
  | Ok (f, r) => exists text negative bits, longest_word t text r negative bits /\ f = (bits + if (negative : bool) then 2 ^ 63 else 0)
  | Err c => c = EINVAL /\ no_word t
  | _ => False
  end.
Proof.
  assert (exists negative s, t = minus negative ++ s /\ (negative = false -> match s with c :: _ => c <> 45 | [] => True end)) as (negative & s & Et & Hneg).
  { destruct t as [|c s]; [exists false, []; split; reflexivity|]. destruct (N.eq_dec c 45) as [->|H]; [exists true, s; split; [reflexivity|discriminate]|exists false, (c :: s); split; [reflexivity|intros _; exact H]]. }
  assert (match t with c :: _ => c =? 45 | [] => false end = negative) as E1.
  { rewrite Et. destruct negative; [reflexivity|]. cbn [minus app]. destruct s as [|c s]; [reflexivity|]. apply N.eqb_neq. apply Hneg. reflexivity. }
  assert ((if negative then tl t else t) = s) as E2 by (rewrite Et; destruct negative; reflexivity).
  assert (forall text r neg' bits, t = text ++ r -> word_text text neg' bits -> exists u, neg' = negative /\ text = minus negative ++ u /\ s = u ++ r /\ body u bits) as Hinv.
  { intros text r neg' bits E W. apply word_body in W. destruct W as (u & -> & B). exists u. assert (neg' = negative) as ->.
    { destruct (body_start u bits B) as (c & q & -> & Hc & _). rewrite Et in E. destruct neg', negative; try reflexivity; exfalso.
      - cbn in E. destruct s as [|c' s]; [discriminate|]. injection E as E _. apply (Hneg eq_refl). exact E.
      - cbn in E. injection E as E _. apply Hc. symmetry. exact E. }
    split; [reflexivity|]. split; [reflexivity|]. split; [|exact B]. rewrite Et, <- app_assoc in E. apply app_inv_head in E. exact E. }
  unfold parse_infnan. rewrite E1. cbv zeta. rewrite E2. pose proof (infnan_body s) as H. cbv zeta in H.
  assert (forall bits r, (exists u, s = u ++ r /\ body u bits /\ forall u' r' bits', s = u' ++ r' -> body u' bits' -> (length u' <= length u)%nat) ->
    exists text neg' bits', longest_word t text r neg' bits' /\ (if negative then 0x8000000000000000 else 0) + bits = (bits' + if (neg' : bool) then 2 ^ 63 else 0)) as Hok.
  { intros bits r (u & Es & B & Hmax). exists (minus negative ++ u), negative, bits. split; [|destruct negative; lia]. split; [rewrite Et, Es, app_assoc; reflexivity|].
    split; [apply word_body; exists u; split; [reflexivity|exact B]|]. intros text' rest' neg' bits' E W. destruct (Hinv _ _ _ _ E W) as (u' & _ & -> & E' & B'). specialize (Hmax u' rest' bits' E' B').
    rewrite !app_length. lia. }
  destruct (same_letters s $"nan"); [apply Hok; exact H|]. destruct (same_letters s $"inf"); [apply Hok; exact H|].
  split; [reflexivity|]. intros text r neg' bits E W. destruct (Hinv _ _ _ _ E W) as (u & _ & _ & E' & B). exact (H u r bits E' B).
Qed.
