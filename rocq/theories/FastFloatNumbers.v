(** * The parts of the texts of numbers *)
From Verif Require Import Base BaseFacts Text RyuSpec RyuDigits RyuDouble FastFloatModel FastFloatSpec FastFloatDigits FastFloatMantissa.
Local Open Scope Z_scope.

(** ** Exponents *)

(** A large exponent is only known to be large. *)
Definition saturated (x x' : Z) : Prop := x' = x \/ 2 ^ 28 <= x' <= x \/ x <= x' <= - 2 ^ 28.

Definition no_more_exponent (r : bytes) : Prop := forall expo x r', r = expo ++ r' -> exponent_text expo x -> expo = [].

Lemma digits_start ds r : Forall is_digit ds -> ds <> [] -> exists c q, ds ++ r = c :: q /\ is_digit c.
Proof. intros H Hne. destruct ds as [|c ds]; [congruence|]. apply Forall_cons_iff in H. exists c, (ds ++ r). split; [reflexivity|apply H]. Qed.

Lemma parse_exponent_some expo x r : exponent_text expo x -> expo <> [] -> stops r -> exists x', parse_exponent (expo ++ r) = (r, x') /\ saturated x x'.
Proof.
  intros H Hne Hr. destruct H as [|letter sign digits Hl Hs Hd Hdne]; [congruence|]. clear Hne.
  destruct (scan_exponent_ok digits r Hd Hr 0 ltac:(lia)) as (a & Ea & Ha). rewrite Z.mul_0_l, Z.add_0_l in Ha.
  destruct (digits_start digits r Hd Hdne) as (c & q & Eq & Hc). pose proof (proj2 (is_integer_spec c) Hc) as Ic.
  assert (forall s neg x0, (sign = [45%N] /\ neg = true /\ x0 = - digits_value digits \/ sign = s /\ (s = [] \/ s = [43%N]) /\ neg = false /\ x0 = digits_value digits) ->
            exists x', parse_exponent (letter ++ sign ++ digits ++ r) = (r, x') /\ saturated x0 x') as G.
  { intros s neg x0 H. assert (exists l, letter = [l] /\ ((l =? 101) || (l =? 69))%N = true) as (l & -> & El) by (destruct Hl as [-> | ->]; eexists; split; reflexivity).
    cbn [app parse_exponent]. rewrite El. destruct H as [(-> & -> & ->)|(-> & [-> | ->] & -> & ->)]; cbn [app].
    - change (45 =? 45)%N with true. cbv iota. rewrite Eq in *. rewrite Ic, Ea. exists (- a). split; [reflexivity|]. unfold saturated. lia.
    - rewrite Eq in *. assert (c =? 45 = false)%N as -> by (apply N.eqb_neq; unfold is_digit in Hc; lia). assert (c =? 43 = false)%N as -> by (apply N.eqb_neq; unfold is_digit in Hc; lia).
      rewrite Ic, Ea. exists a. split; [reflexivity|]. unfold saturated. lia.
    - change (43 =? 45)%N with false. change (43 =? 43)%N with true. cbv iota. rewrite Eq in *. rewrite Ic, Ea. exists a. split; [reflexivity|]. unfold saturated. lia. }
  rewrite <- !app_assoc. destruct Hs as [-> |[-> | ->]].
  - apply (G [] false). right. repeat split. left; reflexivity.
  - apply (G $"+" false). right. repeat split. right; reflexivity.
  - apply (G [] true). left. repeat split.
Qed.

Lemma letter_text c : ((c =? 101) || (c =? 69))%N = true -> [c] = $"e" \/ [c] = $"E".
Proof. rewrite orb_true_iff, !N.eqb_eq. intros [-> | ->]; [left|right]; reflexivity. Qed.
Lemma more_exponent c sign d q : ((c =? 101) || (c =? 69))%N = true -> sign = [] \/ sign = $"+" \/ sign = $"-" -> is_integer d = true -> ~ no_more_exponent ([c] ++ sign ++ d :: q).
Proof.
  intros Hc Hs Hd N. specialize (N ([c] ++ sign ++ [d]) (match sign with [45%N] => - digits_value [d] | _ => digits_value [d] end) q).
  enough ([c] ++ sign ++ [d] = []) by discriminate. apply N; [rewrite <- !app_assoc; reflexivity|]. apply an_exponent; [apply letter_text; exact Hc|exact Hs| |discriminate].
  constructor; [apply is_integer_spec; exact Hd|constructor].
Qed.
Lemma parse_exponent_none r : no_more_exponent r -> parse_exponent r = (r, 0).
Proof.
  intros H. destruct r as [|c r]; [reflexivity|]. cbn [parse_exponent]. destruct ((c =? 101) || (c =? 69))%N eqn:Ec; [|reflexivity].
  destruct r as [|s r]; [reflexivity|]. destruct (N.eqb_spec s 45) as [->|Hs].
  - destruct r as [|d q]; [reflexivity|]. destruct (is_integer d) eqn:Ed; [|reflexivity]. exfalso. apply (more_exponent c $"-" d q Ec ltac:(right; right; reflexivity) Ed H).
  - destruct (N.eqb_spec s 43) as [->|Hp].
    + destruct r as [|d q]; [reflexivity|]. destruct (is_integer d) eqn:Ed; [|reflexivity]. exfalso. apply (more_exponent c $"+" d q Ec ltac:(right; left; reflexivity) Ed H).
    + destruct (is_integer s) eqn:Ed; [|reflexivity]. exfalso. apply (more_exponent c [] s r Ec ltac:(left; reflexivity) Ed H).
Qed.

(** ** The parts *)

Lemma between_app (a b : bytes) : between (a ++ b) b = a.
Proof. unfold between. rewrite app_length. replace (length a + length b - length b)%nat with (length a) by lia. rewrite firstn_app, Nat.sub_diag, firstn_all. cbn. apply app_nil_r. Qed.

Definition no_point (r : bytes) : Prop := match r with c :: _ => c <> 46%N | [] => True end.

Definition fraction_of (point frac : bytes) : option bytes := match point with [] => None | _ => Some frac end.

Lemma parse_parts negative ints point frac tail rest x' :
  Forall is_digit ints -> Forall is_digit frac -> Forall (fun c => (c < 256)%N) tail -> ints ++ frac <> [] -> point = [46%N] \/ (point = [] /\ frac = [] /\ no_point tail) ->
  stops tail -> parse_exponent tail = (rest, x') ->
  let m := digits_value (ints ++ frac) in
  exists n, parse_number_string (minus negative ++ ints ++ point ++ frac ++ tail) = Some n /\
    pn_rest n = rest /\ pn_negative n = negative /\ pn_integer n = ints /\ pn_fraction n = fraction_of point frac /\
    ((m < 10 ^ 19 /\ pn_too_many n = false /\ pn_mantissa n = m /\ pn_exponent n = x' - Z.of_nat (length frac)) \/
     (10 ^ 19 <= m /\ pn_too_many n = true /\ exists j low, m = pn_mantissa n * 10 ^ j + low /\ 0 <= low < 10 ^ j /\ 1 <= j <= Z.of_nat (length (ints ++ frac)) /\
        pn_exponent n = x' - Z.of_nat (length frac) + j /\ 10 ^ 18 <= pn_mantissa n < 10 ^ 19)).
Proof.
  intros Hi Hf Ht Hne Hp Hst He m.
  set (s := ints ++ point ++ frac ++ tail).
  assert (exists c q, s = c :: q /\ (is_integer c || (c =? 46)%N = true) /\ (c =? 45)%N = false) as (c0 & q0 & Es & Hc0 & Hc45).
  { destruct ints as [|c q].
    - cbn [app] in Hne. destruct Hp as [->|(_ & -> & _)]; [|congruence]. exists 46%N, (frac ++ tail). repeat split.
    - apply Forall_cons_iff in Hi. destruct Hi as [Hc _]. exists c, (q ++ point ++ frac ++ tail). repeat split.
      + rewrite (proj2 (is_integer_spec c) Hc). reflexivity.
      + apply N.eqb_neq. unfold is_digit in Hc. lia. }
  assert (parse_number_string (minus negative ++ s) =
    let (p, i) := scan_digits s 0 in
    let integer := between s p in
    let digit_count := Z.of_nat (length integer) in
    let '(p, i, exponent, fraction) :=
      match p with
      | c :: before =>
          if (c =? 46)%N then
            let (p, i) := loop_parse_if_eight_digits before i in
            let (p, i) := scan_digits p i in
            (p, i, Z.of_nat (length p) - Z.of_nat (length before), Some (between before p))
          else (p, i, 0, None)
      | [] => (p, i, 0, None)
      end in
    let digit_count := digit_count - exponent in
    if digit_count =? 0 then None
    else
      let (p, exp_number) := parse_exponent p in
      let rest := p in
      let exponent := exponent + exp_number in
      let digit_count := if 19 <? digit_count then drop_zeros s digit_count else digit_count in
      if 19 <? digit_count then
        let (p, i) := nineteen integer 0 in
        if 1000000000000000000 <=? i then
          Some (Parsed (Z.of_nat (length p) + exp_number) i rest negative true integer fraction)
        else
          match fraction with
          | Some f => let (p, i) := nineteen f i in
                      Some (Parsed (Z.of_nat (length p) - Z.of_nat (length f) + exp_number) i rest negative true integer fraction)
          | None => Some (Parsed exp_number i rest negative true integer fraction)
          end
      else Some (Parsed exponent i rest negative false integer fraction)) as ->.
  { assert (match s with c :: _ => is_integer c || (c =? 46)%N | [] => false end = true) as G1 by (rewrite Es; exact Hc0).
    assert (match s with c :: _ => (c =? 45)%N | [] => false end = false) as G2 by (rewrite Es; exact Hc45). clearbody s. clear - G1 G2.
    unfold parse_number_string. cbv zeta. destruct negative.
    - change (minus true ++ s) with (45%N :: s). cbv iota. change (45 =? 45)%N with true. cbv iota. cbn [tl]. rewrite G1. reflexivity.
    - change (minus false ++ s) with s. rewrite G2. reflexivity. }
  assert (scan_digits s 0 = (point ++ frac ++ tail, w64 (digits_value ints))) as ->.
  { unfold s. rewrite scan_all; [|exact Hi| |lia].
    - rewrite Z.mul_0_l, Z.add_0_l. reflexivity.
    - destruct Hp as [->|(-> & -> & _)]; [|exact Hst]. cbn. unfold is_digit. lia. }
  cbv zeta. assert (between s (point ++ frac ++ tail) = ints) as -> by apply between_app.
  match goal with |- context [match point ++ frac ++ tail with [] => ?a | c :: before => @?b c before end] =>
    assert (match point ++ frac ++ tail with [] => a | c :: before => b c before end = (tail, w64 m, - Z.of_nat (length frac), fraction_of point frac)) as -> end.
  { unfold m. destruct Hp as [->|(-> & -> & Hn)].
    - cbn [app]. change (46 =? 46)%N with true. cbv iota.
      assert (Forall (fun c => (c < 256)%N) (frac ++ tail)) as Hb.
      { apply Forall_app. split; [|exact Ht]. apply (Forall_impl _ (P := is_digit)); [|exact Hf]. unfold is_digit. intros a Ha. lia. }
      pose proof (loop_scan (length (frac ++ tail)) (frac ++ tail) (w64 (digits_value ints)) ltac:(lia) Hb ltac:(unfold w64; apply Z.mod_pos_bound; lia)) as L.
      destruct (loop_parse_if_eight_digits (frac ++ tail) (w64 (digits_value ints))) as [p i]. rewrite L, scan_all by (try assumption; unfold w64; apply Z.mod_pos_bound; lia).
      rewrite w64_mul_add, between_app, app_length, digits_value_app. f_equal. f_equal. lia.
    - rewrite app_nil_r. cbn [app length]. destruct tail as [|c q]; [reflexivity|]. cbn in Hn. rewrite (proj2 (N.eqb_neq c 46) Hn). reflexivity. }
  assert (Z.of_nat (length ints) - - Z.of_nat (length frac) = Z.of_nat (length ints) + Z.of_nat (length frac)) as -> by lia.
  destruct (Z.eqb_spec (Z.of_nat (length ints) + Z.of_nat (length frac)) 0) as [E|_].
  { exfalso. apply Hne. destruct ints; [|cbn [length] in E; lia]. destruct frac; [reflexivity|cbn [length] in E; lia]. }
  rewrite He. assert (point = [46%N] \/ point = [] /\ frac = []) as Hp' by intuition.
  pose proof (drop_zeros_ok ints point frac tail Hi Hf Hp') as D. cbv zeta in D. fold s in D. rewrite D. fold m. clear D.
  assert (0 <= m) as Hm0 by (apply digits_bound; apply Forall_app; split; assumption).
  destruct (Z.leb_spec (10 ^ 19) m) as [Hm|Hm].
  - destruct (nineteen_ok ints Hi 0 ltac:(lia)) as (c & p' & Ec & En & Hlt & Hend & _). rewrite En. rewrite Z.mul_0_l, Z.add_0_l in *.
    assert (Forall is_digit c /\ Forall is_digit p') as [Hc Hp1] by (apply Forall_app; rewrite <- Ec; exact Hi).
    destruct (Z.leb_spec 1000000000000000000 (digits_value c)) as [Hw|Hw].
    + eexists. split; [reflexivity|]. cbn [pn_rest pn_negative pn_integer pn_fraction pn_too_many pn_mantissa pn_exponent]. repeat (split; [reflexivity|]). right.
      split; [exact Hm|]. split; [reflexivity|]. exists (Z.of_nat (length (p' ++ frac))), (digits_value (p' ++ frac)).
      assert (Forall is_digit (p' ++ frac)) as Hpf by (apply Forall_app; split; assumption). pose proof (digits_bound _ Hpf) as B.
      assert (m = digits_value c * 10 ^ Z.of_nat (length (p' ++ frac)) + digits_value (p' ++ frac)) as Em by (unfold m; rewrite Ec, <- app_assoc; apply digits_value_app).
      split; [exact Em|]. split; [exact B|]. split.
      * split; [|rewrite Ec, !app_length; lia]. destruct (p' ++ frac) as [|z z'] eqn:Ez; [|cbn [length]; lia]. cbn [length] in Em. change (10 ^ Z.of_nat 0) with 1 in Em.
        unfold digits_value at 2 in Em. cbn [fold_left] in Em. lia.
      * split; [rewrite app_length; lia|lia].
    + assert (p' = []) as -> by (destruct Hend as [|H]; [assumption|lia]). rewrite app_nil_r in Ec. subst c.
      destruct Hp as [->|(-> & -> & _)].
      2:{ exfalso. unfold m in Hm. rewrite app_nil_r in Hm. lia. }
      cbn [fraction_of]. destruct (nineteen_ok frac Hf (digits_value ints) ltac:(pose proof (digits_bound ints Hi); lia)) as (c' & p'' & Ec' & En' & Hlt' & Hend' & _). rewrite En'.
      assert (Forall is_digit c' /\ Forall is_digit p'') as [Hc' Hp2] by (apply Forall_app; rewrite <- Ec'; exact Hf).
      assert (m = (digits_value ints * 10 ^ Z.of_nat (length c') + digits_value c') * 10 ^ Z.of_nat (length p'') + digits_value p'') as Em.
      { unfold m. rewrite Ec', app_assoc, !digits_value_app. reflexivity. }
      eexists. split; [reflexivity|]. cbn [pn_rest pn_negative pn_integer pn_fraction pn_too_many pn_mantissa pn_exponent]. repeat (split; [reflexivity|]). right.
      split; [exact Hm|]. split; [reflexivity|]. exists (Z.of_nat (length p'')), (digits_value p''). split; [exact Em|]. split; [apply digits_bound; exact Hp2|].
      assert (p'' <> []) as Hp''. { intros ->. cbn [length] in Em. change (10 ^ Z.of_nat 0) with 1 in Em. unfold digits_value at 3 in Em. cbn [fold_left] in Em. lia. }
      split; [|split; [lia|]].
      * split; [destruct p''; [congruence|cbn [length]; lia]|rewrite Ec', !app_length; lia].
      * destruct Hend'; [congruence|]. lia.
  - eexists. split; [reflexivity|]. cbn [pn_rest pn_negative pn_integer pn_fraction pn_too_many pn_mantissa pn_exponent]. repeat (split; [reflexivity|]). left.
    split; [exact Hm|]. split; [reflexivity|]. split; [unfold w64; apply Z.mod_small; lia|lia].
Qed.

(** ** The longest number *)

Lemma digit_no_point r : no_point r \/ exists q, r = 46%N :: q.
Proof. destruct r as [|c q]; [left; exact I|]. destruct (N.eq_dec c 46) as [->|H]; [right; exists q; reflexivity|left; exact H]. Qed.
Lemma stops_or r : stops r \/ exists c q, r = c :: q /\ is_digit c.
Proof. destruct r as [|c q]; [left; exact I|]. destruct (is_integer c) eqn:E; [right; exists c, q; split; [reflexivity|apply is_integer_spec; exact E]|left; apply is_integer_false; exact E]. Qed.

Lemma longest_parts t text rest negative m e : longest_number t text rest negative m e -> exists ints point frac expo x,
  t = minus negative ++ ints ++ point ++ frac ++ expo ++ rest /\ m = digits_value (ints ++ frac) /\ e = x - Z.of_nat (length frac) /\
  Forall is_digit ints /\ Forall is_digit frac /\ ints ++ frac <> [] /\ (point = [46%N] \/ (point = [] /\ frac = [] /\ no_point (expo ++ rest))) /\
  exponent_text expo x /\ stops (expo ++ rest) /\ (expo = [] -> no_more_exponent rest) /\ (expo <> [] -> stops rest).
Proof.
  intros (Et & Hn & Hmax). destruct Hn as [negative ints point frac expo x Hi Hf Hne Hp He]. exists ints, point, frac, expo, x.
  rewrite <- !app_assoc in Et. repeat (split; [first [exact Et|reflexivity|assumption]|]).
  assert (forall ints' point' frac' expo' x' rest', Forall is_digit ints' -> Forall is_digit frac' -> ints' ++ frac' <> [] -> point' = $"." \/ point' = [] /\ frac' = [] -> exponent_text expo' x' ->
            ints ++ point ++ frac ++ expo ++ rest = (ints' ++ point' ++ frac' ++ expo') ++ rest' ->
            (length (ints' ++ point' ++ frac' ++ expo') <= length (ints ++ point ++ frac ++ expo))%nat) as M.
  { intros ints' point' frac' expo' x' rest' H1 H2 H3 H4 H5 H6.
    specialize (Hmax (minus negative ++ ints' ++ point' ++ frac' ++ expo') rest' negative _ _ ltac:(rewrite Et, H6, <- !app_assoc; reflexivity) (a_number negative ints' point' frac' expo' x' H1 H2 H3 H4 H5)).
    rewrite !(app_length (minus negative)) in Hmax. lia. }
  clear Hmax Et.
  assert (expo <> [] -> exists c q, expo = c :: q /\ (c = 101 \/ c = 69)%N) as Hex.
  { intros H. destruct He as [|letter sign digits Hl Hs Hd Hdne]; [congruence|]. destruct Hl as [-> | ->]; eexists; eexists; (split; [reflexivity|]); [left|right]; reflexivity. }
  assert (stops (expo ++ rest)) as Hst.
  { destruct expo as [|c q] eqn:Ee.
    - cbn [app]. destruct (stops_or rest) as [|(c & q & -> & Hc)]; [assumption|exfalso].
      destruct Hp as [->|[-> ->]].
      + specialize (M ints $"." (frac ++ [c]) [] 0 q Hi ltac:(apply Forall_app; split; [exact Hf|constructor; [exact Hc|constructor]]) ltac:(intros X; apply app_eq_nil in X; destruct X as [_ X]; apply app_eq_nil in X; destruct X; discriminate)
          ltac:(left; reflexivity) no_exponent ltac:(rewrite <- !app_assoc; reflexivity)). rewrite !app_length in M. cbn [length] in M. lia.
      + specialize (M (ints ++ [c]) [] [] [] 0 q ltac:(apply Forall_app; split; [exact Hi|constructor; [exact Hc|constructor]]) ltac:(constructor) ltac:(intros X; rewrite app_nil_r in X; apply app_eq_nil in X; destruct X; discriminate)
          ltac:(right; split; reflexivity) no_exponent ltac:(cbn [app]; rewrite !app_nil_r, <- !app_assoc; reflexivity)). rewrite !app_length in M. cbn [length] in M. lia.
    - destruct (Hex ltac:(discriminate)) as (c' & q' & Ec & Hc). injection Ec as <- <-. cbn [app stops]. unfold is_digit. lia. }
  assert (point = [46%N] \/ (point = [] /\ frac = [] /\ no_point (expo ++ rest))) as Hp2.
  { destruct Hp as [->|[-> ->]]; [left; reflexivity|right]. split; [reflexivity|]. split; [reflexivity|]. destruct expo as [|c q] eqn:Ee.
    - cbn [app]. destruct (digit_no_point rest) as [|(q & ->)]; [assumption|exfalso].
      specialize (M ints $"." [] [] 0 q Hi ltac:(constructor) Hne ltac:(left; reflexivity) no_exponent ltac:(rewrite <- !app_assoc; reflexivity)). rewrite !app_length in M. change (length $".") with 1%nat in M. cbn [length] in M. lia.
    - destruct (Hex ltac:(discriminate)) as (c' & q' & Ec & Hc). injection Ec as <- <-. cbn [app no_point]. lia. }
  split; [exact Hp2|]. split; [exact He|]. split; [exact Hst|]. split.
  - intros ->. intros expo' x' r' Er Hx'. destruct expo' as [|c q]; [reflexivity|exfalso].
    specialize (M ints point frac (c :: q) x' r' Hi Hf Hne Hp Hx' ltac:(rewrite Er, <- !app_assoc; reflexivity)). rewrite !app_length in M. cbn [length] in M. lia.
  - intros Hene. destruct He as [|letter sign digits Hl Hs Hd Hdne]; [congruence|]. destruct (stops_or rest) as [|(c & q & -> & Hc)]; [assumption|exfalso].
    specialize (M ints point frac (letter ++ sign ++ digits ++ [c]) _ q Hi Hf Hne Hp
      ltac:(apply an_exponent; [exact Hl|exact Hs|apply Forall_app; split; [exact Hd|constructor; [exact Hc|constructor]]|intros X; apply app_eq_nil in X; destruct X; discriminate])
      ltac:(rewrite <- !app_assoc; reflexivity)). rewrite !app_length in M. cbn [length] in M. lia.
Qed.

(** ** Every text *)

Lemma span_digits p : exists ds r, p = ds ++ r /\ Forall is_digit ds /\ stops r.
Proof.
  induction p as [|c p IH]; [exists [], []; repeat split; constructor|]. destruct (is_integer c) eqn:E.
  - destruct IH as (ds & r & -> & H & S). exists (c :: ds), r. repeat split; [|exact S]. constructor; [apply is_integer_spec; exact E|exact H].
  - exists [], (c :: p). repeat split; [constructor|]. apply is_integer_false. exact E.
Qed.
Lemma split_exponent p : stops p -> exists expo x r, p = expo ++ r /\ exponent_text expo x /\ (expo = [] -> no_more_exponent r) /\ (expo <> [] -> stops r).
Proof.
  intros Hp. destruct p as [|c p].
  { exists [], 0, []. split; [reflexivity|]. split; [constructor|]. split; [|congruence]. intros _ expo x r' E _. symmetry in E. apply app_eq_nil in E. apply E. }
  assert (((c =? 101) || (c =? 69))%N = false -> no_more_exponent (c :: p)) as Hno.
  { intros Hc expo x r' E H. destruct H as [|letter sign digits Hl Hs Hd Hdne]; [reflexivity|exfalso]. destruct Hl as [-> | ->]; (injection E as E1 _; rewrite E1 in Hc; discriminate). }
  destruct ((c =? 101) || (c =? 69))%N eqn:Ec.
  2:{ exists [], 0, (c :: p). split; [reflexivity|]. split; [constructor|]. split; [intros _; apply Hno; reflexivity|congruence]. }
  clear Hno. assert (exists sign q, p = sign ++ q /\ (sign = [] \/ sign = $"+" \/ sign = $"-") /\ (sign = [] -> match q with s :: _ => s <> 43 /\ s <> 45 | [] => True end)%N) as (sign & q & -> & Hs & Hsn).
  { destruct p as [|s q]; [exists [], []; repeat split; left; reflexivity|]. destruct (N.eq_dec s 43) as [->|H1]; [exists $"+", q; repeat split; [right; left; reflexivity|discriminate]|].
    destruct (N.eq_dec s 45) as [->|H2]; [exists $"-", q; repeat split; [right; right; reflexivity|discriminate]|]. exists [], (s :: q). repeat split; [left; reflexivity|exact H1|exact H2]. }
  destruct (span_digits q) as (ds & r & -> & Hd & Hr). destruct ds as [|d ds].
  - exists [], 0, ([c] ++ sign ++ r). split; [reflexivity|]. split; [constructor|]. split; [|congruence]. intros _ expo x r' E H.
    destruct H as [|letter sign' digits Hl Hs' Hd' Hdne]; [reflexivity|exfalso].
    assert (exists l, letter = [l]) as (l & ->) by (destruct Hl as [-> | ->]; eexists; reflexivity). cbn [app] in E. injection E as _ E.
    destruct digits as [|d digits]; [congruence|]. apply Forall_cons_iff in Hd'. destruct Hd' as [Hd1 _]. rewrite <- !app_assoc in E. cbn [app] in E.
    cbn [app] in Hsn. destruct Hs as [->|[->| ->]], Hs' as [->|[->| ->]]; cbn in E; unfold is_digit in Hd1.
    + rewrite E in Hr. cbn in Hr. apply Hr. exact Hd1.
    + rewrite E in Hsn. destruct (Hsn eq_refl) as [A B]. first [apply A; reflexivity|apply B; reflexivity].
    + rewrite E in Hsn. destruct (Hsn eq_refl) as [A B]. first [apply A; reflexivity|apply B; reflexivity].
    + injection E as E1 _. lia.
    + injection E as E1. rewrite E1 in Hr. cbn in Hr. apply Hr. exact Hd1.
    + injection E as E1 _. lia.
    + injection E as E1 _. lia.
    + injection E as E1 _. lia.
    + injection E as E1. rewrite E1 in Hr. cbn in Hr. apply Hr. exact Hd1.
  - eexists ([c] ++ sign ++ d :: ds), _, r. split; [rewrite <- !app_assoc; reflexivity|]. split; [apply an_exponent; [apply letter_text; exact Ec|exact Hs|exact Hd|discriminate]|].
    split; [discriminate|]. intros _. exact Hr.
Qed.

(** A text without a number gives no parts, and every other text has parts. *)
Lemma parts_or_none t : Forall (fun c => (c < 256)%N) t -> (exists negative ints point frac expo x rest,
    t = minus negative ++ ints ++ point ++ frac ++ expo ++ rest /\
    Forall is_digit ints /\ Forall is_digit frac /\ ints ++ frac <> [] /\ (point = [46%N] \/ (point = [] /\ frac = [] /\ no_point (expo ++ rest))) /\
    exponent_text expo x /\ stops (expo ++ rest) /\ (expo = [] -> no_more_exponent rest) /\ (expo <> [] -> stops rest)) \/
  parse_number_string t = None.
Proof.
  intros Hb. assert (exists negative s, t = minus negative ++ s /\ (negative = false -> match s with c :: _ => c <> 45 | [] => True end)%N) as (negative & s & -> & Hneg).
  { destruct t as [|c s]; [exists false, []; split; reflexivity|]. destruct (N.eq_dec c 45) as [->|H]; [exists true, s; split; [reflexivity|discriminate]|exists false, (c :: s); split; [reflexivity|intros _; exact H]]. }
  destruct (span_digits s) as (ints & r & -> & Hi & Hr). destruct (digit_no_point r) as [Hnp|(q & ->)].
  - destruct ints as [|c ints].
    + right. cbn [app] in *. unfold parse_number_string. cbv zeta. destruct negative; [change (minus true ++ r) with (45%N :: r)|change (minus false ++ r) with r].
      * cbv iota. change (45 =? 45)%N with true. cbv iota. cbn [tl andb]. destruct r as [|c r]; [reflexivity|]. cbn in Hr, Hnp. rewrite (proj2 (is_integer_false c) Hr), (proj2 (N.eqb_neq c 46) Hnp). reflexivity.
      * destruct r as [|c r]; [reflexivity|]. specialize (Hneg eq_refl). rewrite (proj2 (N.eqb_neq c 45) Hneg). cbn [andb]. rewrite scan_stops by exact Hr. cbn in Hnp.
        rewrite (proj2 (N.eqb_neq c 46) Hnp). unfold between. rewrite Nat.sub_diag. reflexivity.
    + left. destruct (split_exponent r Hr) as (expo & x & rest & -> & He & H1 & H2). exists negative, (c :: ints), [], [], expo, x, rest.
      split; [reflexivity|]. split; [exact Hi|]. split; [constructor|]. split; [discriminate|]. split; [right; repeat split; exact Hnp|]. repeat (split; [assumption|]). assumption.
  - destruct (span_digits q) as (frac & r & -> & Hf & Hr'). destruct (ints ++ frac) as [|c0 z] eqn:Ez.
    + apply app_eq_nil in Ez. destruct Ez as [-> ->]. right. cbn [app] in *.
      assert (Forall (fun c => (c < 256)%N) r) as Hbr by (apply Forall_app in Hb; destruct Hb as [_ Hb]; apply Forall_cons_iff in Hb; apply Hb).
      assert (loop_parse_if_eight_digits r 0 = (r, 0)) as HL.
      { destruct r as [|c0 [|c1 [|c2 [|c3 [|c4 [|c5 [|c6 [|c7 r]]]]]]]]; try reflexivity. cbn [loop_parse_if_eight_digits].
        destruct (is_made_of_eight_digits_fast _) eqn:E; [exfalso|reflexivity].
        assert (Forall (fun c => (c < 256)%N) [c0; c1; c2; c3; c4; c5; c6; c7]) as H8 by (apply (Forall_app _ [c0; c1; c2; c3; c4; c5; c6; c7] r); exact Hbr).
        pose proof (made_of_eight [c0; c1; c2; c3; c4; c5; c6; c7] eq_refl H8 E) as D. apply Forall_cons_iff in D. cbn in Hr'. apply Hr'. apply D. }
      assert (scan_digits (46%N :: r) 0 = (46%N :: r, 0)) as HS by (apply scan_stops; exact Hr).
      unfold parse_number_string. cbv zeta. destruct negative; [change (minus true ++ 46%N :: r) with (45%N :: 46%N :: r)|change (minus false ++ 46%N :: r) with (46%N :: r)].
      * cbv iota. change (45 =? 45)%N with true. cbv iota. cbn [tl]. change (is_integer 46 || (46 =? 46)%N) with true. cbn [negb andb]. rewrite HS. change (46 =? 46)%N with true. cbv iota.
        rewrite HL, scan_stops by exact Hr'. unfold between. rewrite Nat.sub_diag, Z.sub_diag. reflexivity.
      * cbv iota. change (46 =? 45)%N with false. cbn [andb]. rewrite HS. change (46 =? 46)%N with true. cbv iota.
        rewrite HL, scan_stops by exact Hr'. unfold between. rewrite Nat.sub_diag, Z.sub_diag. reflexivity.
    + left. destruct (split_exponent r Hr') as (expo & x & rest & -> & He & H1 & H2). exists negative, ints, $".", frac, expo, x, rest.
      split; [reflexivity|]. split; [exact Hi|]. split; [exact Hf|]. split; [rewrite Ez; discriminate|]. split; [left; reflexivity|]. repeat (split; [assumption|]). assumption.
Qed.
