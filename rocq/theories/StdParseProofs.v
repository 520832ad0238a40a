(** * Reading with the C library *)
From Verif Require Import Base BaseFacts Text RyuSpec RyuDouble RyuReads WktGrammar FastFloatModel FastFloatSpec FastFloatDigits FastFloatNumbers FastFloatReads FastFloatNearest StdParseModel StdParseSpec.
Local Open Scope Z_scope.

Lemma c_string_app t : Forall (fun c => c <> 0%N) t -> c_string (t ++ [0%N]) = t.
Proof. induction t as [|c t IH]; intros H; [reflexivity|]. apply Forall_cons_iff in H. destruct H as [H1 H]. cbn [app c_string]. rewrite (proj2 (N.eqb_neq c 0) H1), (IH H). reflexivity. Qed.
Lemma c_string_short t : (length (c_string (t ++ [0%N])) <= length t)%nat.
Proof. induction t as [|c t IH]; [reflexivity|]. cbn [app c_string length]. destruct (c =? 0)%N; cbn [length]; lia. Qed.
Lemma c_string_whole t : length (c_string (t ++ [0%N])) = length t -> Forall (fun c => c <> 0%N) t.
Proof.
  induction t as [|c t IH]; intros H; [constructor|]. cbn [app c_string length] in H. destruct (N.eqb_spec c 0); [discriminate|]. injection H as H. constructor; [assumption|exact (IH H)].
Qed.

Lemma std_spec strtod t : (forall u, (snd (strtod u) <= length u)%nat) ->
  (from_chars_std strtod t = Err EINVAL \/ exists f, from_chars_std strtod t = Ok f) /\
  forall f, from_chars_std strtod t = Ok f <-> (1 <= length t <= 63)%nat /\ Forall (fun c => c <> 0%N) t /\ strtod t = (f, length t).
Proof.
  intros Hs. unfold from_chars_std. destruct t as [|c t]; [split; [left; reflexivity|]; intros f; split; [discriminate|intros (H & _); cbn in H; lia]|].
  set (u := c :: t). assert (1 <= length u)%nat as Hu by (cbn; lia). clearbody u. cbv zeta. destruct (Z.leb_spec 64 (Z.of_nat (length u))) as [L|L].
  { split; [left; reflexivity|]. intros f. split; [discriminate|]. intros (H & _). lia. }
  unfold stored. rewrite app_length. cbn [length]. destruct (Z.leb_spec (Z.of_nat (length u + 1)) 64) as [L'|L']; [|lia]. cbn [obind].
  pose proof (Hs (c_string (u ++ [0%N]))) as H1. pose proof (c_string_short u) as H2. destruct (strtod (c_string (u ++ [0%N]))) as [f n] eqn:E. cbn [snd] in H1.
  destruct (Nat.eqb_spec n (length u)) as [->|Hn].
  - assert (Forall (fun c => c <> 0%N) u) as F by (apply c_string_whole; lia). rewrite (c_string_app u F) in E. split; [right; exists f; reflexivity|].
    intros g. split; [intros H; injection H as <-; repeat split; [lia|lia|exact F|exact E]|]. intros (_ & _ & E'). congruence.
  - split; [left; reflexivity|]. intros g. split; [discriminate|]. intros (_ & F & E'). rewrite (c_string_app u F), E' in E. congruence.
Qed.

Lemma number_chars t negative m e : number_text t negative m e -> t <> [] /\ Forall (fun c => (43 <= c <= 101)%N) t.
Proof.
  intros [neg ints point frac expo x Hi Hf Hne Hp He]. split.
  { intros C. apply app_eq_nil in C as [_ C]. apply app_eq_nil in C as [-> C]. apply app_eq_nil in C as [_ C]. apply app_eq_nil in C as [-> _]. apply Hne. reflexivity. }
  assert (forall ds, Forall is_digit ds -> Forall (fun c => (43 <= c <= 101)%N) ds) as D by (intros ds H; eapply Forall_impl; [|exact H]; unfold is_digit; cbv beta; intros; lia).
  assert (forall c, (43 <= c <= 101)%N -> Forall (fun c => (43 <= c <= 101)%N) [c]) as S1 by (intros c H; constructor; [exact H|constructor]).
  apply Forall_app; split; [destruct neg; [apply S1; vm_compute; split; discriminate|constructor]|]. apply Forall_app; split; [apply D; exact Hi|].
  apply Forall_app; split; [destruct Hp as [->|[-> _]]; [apply S1; vm_compute; split; discriminate|constructor]|]. apply Forall_app; split; [apply D; exact Hf|].
  destruct He as [|letter sign digits Hl Hs Hd _]; [constructor|].
  apply Forall_app; split; [destruct Hl as [-> | ->]; apply S1; vm_compute; split; discriminate|].
  apply Forall_app; split; [destruct Hs as [->|[-> | ->]]; [constructor|apply S1; vm_compute; split; discriminate|apply S1; vm_compute; split; discriminate]|apply D; exact Hd].
Qed.

Lemma std_numbers strtod : strtod_ok strtod -> forall t negative m e, number_text t negative m e -> (length t < 64)%nat ->
  exists f, from_chars_std strtod t = Ok f /\ (f < 2 ^ 64)%N /\ is_negative f = negative /\ forall n, finite n -> nearest_double n m e -> unsigned f = n.
Proof.
  intros Hs t negative m e Hn L. destruct (number_chars t negative m e Hn) as [Hne Hc]. destruct (strtod_number strtod Hs t negative m e Hn L) as (E & H1 & H2 & H3).
  exists (fst (strtod t)). split; [|repeat split; assumption]. apply std_spec; [exact (strtod_in_text strtod Hs)|]. split; [destruct t; [congruence|cbn [length] in *; lia]|].
  split; [eapply Forall_impl; [|exact Hc]; cbv beta; intros; lia|]. rewrite <- E. destruct (strtod t); reflexivity.
Qed.

Lemma std_parse_ok strtod : strtod_ok strtod -> number_parser (std_parse strtod) /\ correctly_rounding (std_parse strtod).
Proof.
  intros Hs. split.
  - split; [reflexivity|]. intros t. unfold std_parse. destruct (std_spec strtod (69%N :: t) (strtod_in_text strtod Hs)) as [[->|[f E]] H]; [reflexivity|exfalso].
    apply H in E. destruct E as (_ & _ & E). pose proof (strtod_letter strtod Hs t) as C. rewrite E in C. discriminate.
  - intros t f m e Hf D Hn Hfin _ L. destruct (std_numbers strtod Hs t _ m e (denotes_number t _ m e D) L) as (g & E & Hg & Hsg & Hu).
    unfold std_parse. rewrite E. f_equal. apply same_bits; [exact Hg|exact Hf|exact Hsg|]. apply Hu; assumption.
Qed.

Lemma builds_agree strtod to_nearest mul : strtod_ok strtod -> to_nearest = true \/ exact_products mul ->
  forall t negative m e n, number_text t negative m e -> (length t < 64)%nat -> finite n -> nearest_double n m e -> (n = 0 -> m = 0) ->
  exists f, from_chars_std strtod t = Ok f /\ geoarrow_from_chars to_nearest mul t = Ok f.
Proof.
  intros Hs Hm t negative m e n Ht L Hfin Hn Hz. destruct (std_numbers strtod Hs t _ m e Ht L) as (g & E & Hg & Hsg & Hu). exists g. split; [exact E|].
  destruct (number_chars t negative m e Ht) as [_ Hc].
  assert (Forall (fun c => (c < 256)%N) t) as Hb by (eapply Forall_impl; [|exact Hc]; cbv beta; intros; lia).
  assert (longest_number t t [] negative m e) as Hl.
  { split; [symmetry; apply app_nil_r|]. split; [exact Ht|]. intros text' rest' ? ? ? E' _. rewrite E', app_length. lia. }
  pose proof (reads_number to_nearest mul t t [] _ m e Hm Hb ltac:(lia) Hl) as R. unfold geoarrow_from_chars.
  destruct (from_chars to_nearest mul t) as [[f' r]|c| |]; [| |destruct R|destruct R].
  - destruct R as (_ & (Hf' & Hs' & Hfin' & Hn') & _). cbn [obind]. f_equal. apply same_bits; [exact Hf'|exact Hg|congruence|]. symmetry. apply Hu; assumption.
  - exfalso. destruct R as [_ [R|[R1 R2]]]; [exact (not_too_large _ m e Hfin Hn R)|]. apply R1, Hz. apply (nearest_unique _ 0 m e); [apply Hfin|lia|exact Hn|exact R2].
Qed.

(** A function that is one *)
Definition ex_strtod (t : bytes) : N * nat :=
  match parse_number_string t with
  | Some n => match pn_rest n with
              | [] => (match from_chars true ieee_mul t with Ok (f, _) => f | _ => if pn_negative n then (2 ^ 63)%N else 0%N end, length t)
              | _ => (0%N, 0%nat)
              end
  | None => (0%N, 0%nat)
  end.
Lemma ex_strtod_ok : strtod_ok ex_strtod.
Proof.
  split.
  - intros t. unfold ex_strtod. destruct (parse_number_string t) as [n|]; [destruct (pn_rest n)|]; cbn [snd]; lia.
  - intros t. unfold ex_strtod. rewrite letter_number. reflexivity.
  - intros t negative m e Ht L. destruct (number_chars t negative m e Ht) as [_ Hc].
    assert (Forall (fun c => (c < 256)%N) t) as Hb by (eapply Forall_impl; [|exact Hc]; cbv beta; intros; lia).
    assert (longest_number t t [] negative m e) as Hl.
    { split; [symmetry; apply app_nil_r|]. split; [exact Ht|]. intros text' rest' ? ? ? E' _. rewrite E', app_length. lia. }
    pose proof (reads_number true ieee_mul t t [] _ m e (or_introl eq_refl) Hb ltac:(lia) Hl) as R.
    assert (exists n, parse_number_string t = Some n /\ pn_rest n = [] /\ pn_negative n = negative) as (n & En & Er & Es).
    { destruct (longest_parts t t [] negative m e Hl) as (ints & point & frac & expo & x & Et & _ & _ & Hi & Hf & Hne & Hp & He & Hst & H1 & H2).
      assert (exists x', parse_exponent (expo ++ []) = ([], x')) as (x' & Ex).
      { destruct expo as [|c q] eqn:Ee.
        - exists 0. cbn [app]. rewrite parse_exponent_none by (apply H1; reflexivity). reflexivity.
        - destruct (parse_exponent_some (c :: q) x [] He ltac:(discriminate) (H2 ltac:(discriminate))) as (x' & Ex & _). exists x'. exact Ex. }
      assert (Forall (fun c => (c < 256)%N) (expo ++ [])) as Hbt by (rewrite Et in Hb; repeat (apply Forall_app in Hb; destruct Hb as [? Hb]); apply Forall_app; split; assumption).
      destruct (parse_parts negative ints point frac (expo ++ []) [] x' Hi Hf Hbt Hne Hp Hst Ex) as (n & En & Er & Eneg & _). exists n. rewrite Et. repeat split; assumption. }
    unfold ex_strtod. rewrite En, Er. cbn [fst snd]. split; [reflexivity|].
    destruct (from_chars true ieee_mul t) as [[f' r]|c| |]; [| |destruct R|destruct R].
    + destruct R as (_ & (Hf' & Hs' & Hfin' & Hn') & _). split; [exact Hf'|]. split; [exact Hs'|]. intros k Hk Hnk. apply (nearest_unique _ _ m e); [apply Hfin'|apply Hk|exact Hn'|exact Hnk].
    + rewrite Es. split; [destruct negative; reflexivity|]. split; [destruct negative; reflexivity|]. intros k Hk Hnk.
      assert (unsigned (if negative then (2 ^ 63)%N else 0%N) = 0) as -> by (destruct negative; reflexivity).
      destruct R as [_ [R|[R1 R2]]]; [exfalso; exact (not_too_large _ m e Hk Hnk R)|]. apply (nearest_unique 0 k m e); [lia|apply Hk|exact R2|exact Hnk].
Qed.
