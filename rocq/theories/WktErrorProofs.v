From Verif Require Import Base BaseFacts Text GeomSpec VisitorModel WktSpec WktReaderModel WktGrammar WktReaderFacts WktErrorModel WktErrorSpec.
Local Open Scope N_scope.

(** ** Words and whitespace *)

Lemma skipped_ok b r : blank b -> no_space r -> skipped (b ++ r) = r.
Proof.
  intros Hb Hr. induction Hb as [|c b Hc Hb IH]; cbn [app skipped].
  - destruct r as [|c r]; [reflexivity|]. cbn in Hr |- *. rewrite Hr. reflexivity.
  - apply is_space_blank in Hc. rewrite Hc. exact IH.
Qed.
Lemma skipped_id r : no_space r -> skipped r = r.
Proof. apply (skipped_ok [] r). constructor. Qed.
Lemma skipped_split t : exists b, t = b ++ skipped t /\ blank b /\ no_space (skipped t).
Proof. destruct (span_space t) as (b & r & -> & Hb & Hr). exists b. rewrite (skipped_ok b r Hb Hr). auto. Qed.
Lemma skipped_length t : (length (skipped t) <= length t)%nat.
Proof. destruct (skipped_split t) as (b & E & _). rewrite E at 2. rewrite app_length. lia. Qed.
Lemma word_at_ok w r : plain w -> word_end r -> word_at (w ++ r) = w.
Proof.
  intros Hw Hr. induction Hw as [|c w Hc Hw IH]; cbn [app word_at].
  - destruct r as [|c r]; [reflexivity|]. cbn in Hr |- *. apply ends_word_sep in Hr. rewrite Hr. reflexivity.
  - destruct ((c =? 0) || is_sep c) eqn:E; [exfalso; apply Hc, ends_word_sep, E|]. rewrite IH. reflexivity.
Qed.
Lemma word_at_split t : exists r, t = word_at t ++ r /\ plain (word_at t) /\ word_end r.
Proof. destruct (span_word t) as (w & r & -> & Hw & Hr). exists r. rewrite (word_at_ok w r Hw Hr). auto. Qed.
Lemma word_is_spec a b : word_is a b = true <-> a = b.
Proof. unfold word_is. destruct (list_eq_dec N.eq_dec a b); split; congruence. Qed.
Lemma starts_word_at w t : starts_with_word w t -> word_at t = w.
Proof. intros (Hw & r & -> & Hr). apply word_at_ok; [exact Hw|exact Hr]. Qed.
Lemma starts_word t : starts_with_word (word_at t) t.
Proof. destruct (word_at_split t) as (r & E & Hw & Hr). split; [exact Hw|]. exists r. split; [exact E|exact Hr]. Qed.

Lemma same_start_hd t t' : same_start t t' -> hd_error t' = hd_error t.
Proof. intros (w & c & r & r' & _ & _ & -> & ->). destruct w; reflexivity. Qed.
Lemma same_start_word t t' : same_start t t' -> word_at t' = word_at t.
Proof.
  intros (w & c & r & r' & Hw & Hc & -> & ->). rewrite !word_at_ok; auto.
Qed.
Lemma hd_no_space t t' : hd_error t' = hd_error t -> no_space t -> no_space t'.
Proof. destruct t, t'; cbn; congruence. Qed.
Lemma hd_word_end t t' : hd_error t' = hd_error t -> word_end t -> word_end t'.
Proof. destruct t, t'; cbn; congruence. Qed.
Lemma hd_hd t t' : hd_error t' = hd_error t -> hd 0 t' = hd 0 t.
Proof. destruct t, t'; cbn; congruence. Qed.
Lemma hd_app (u r r' : bytes) : u <> [] -> hd_error (u ++ r') = hd_error (u ++ r).
Proof. destruct u; [congruence|reflexivity]. Qed.

Section Parser.
Variable parse : bytes -> option N.
Hypothesis no_word : parse [] = None.
Hypothesis zero : parse $"0" <> None.

(** ** What parsers do with a text determines what they do with similar texts *)

(** [f'] is [f] with more fuel. Before [ok] texts, or texts that start like the original, [f'] reads the same; after an error, it makes
    the same error if the text goes on alike, and there is a text [c] that can stand there. Then the texts are related by [N]. *)
Definition errs_at (ok : bytes -> Prop) (N : bytes -> bytes -> Prop) (f' : bytes -> reading) (t : bytes) (x : reading) : Prop :=
  match x with
  | Got r => exists u, u <> [] /\ t = u ++ r /\ forall r', hd_error r' = hd_error r \/ ok r' -> f' (u ++ r') = Got r'
  | Bad w r => exists u, t = u ++ r /\ ~ stands parse w r /\
      (w <> $"'('" -> forall r', same_start r r' -> f' (u ++ r') = Bad w r') /\
      exists c, forall r', ok r' -> stands parse w (c ++ r') /\ N t (u ++ c ++ r') /\ f' (u ++ c ++ r') = Got r'
  | Tired => True
  end.
Definition errs (ok : bytes -> Prop) (N : bytes -> bytes -> Prop) (f f' : bytes -> reading) : Prop := forall t, errs_at ok N f' t (f t).
Definition anything (t : bytes) : Prop := True.
(** [t'] starts like [t], or with [c]. *)
Definition near (c : N) (t t' : bytes) : Prop := hd_error t' = hd_error t \/ hd_error t' = Some c.

Lemma errs_weaken (ok ok' : bytes -> Prop) (N N' : bytes -> bytes -> Prop) f f' : errs ok N f f' -> (forall t, ok' t -> ok t) -> (forall t t', N t t' -> N' t t') -> errs ok' N' f f'.
Proof.
  intros H Ho Hn t. specialize (H t). destruct (f t) as [r|w r|]; [| |exact I].
  - destruct H as (u & Hu & E & L). exists u. split; [exact Hu|]. split; [exact E|]. intros r' [Hr|Hr]; apply L; auto.
  - destruct H as (u & E & Hs & D & c & C). exists u. split; [exact E|]. split; [exact Hs|]. split; [exact D|]. exists c. intros r' Hr.
    destruct (C r' (Ho _ Hr)) as (C1 & C2 & C3). auto.
Qed.
Lemma errs_ext ok N f f' g g' : (forall t, f t = g t) -> (forall t, f' t = g' t) -> errs ok N g g' -> errs ok N f f'.
Proof.
  intros E E' H t. rewrite E. specialize (H t). destruct (g t) as [r|w r|]; [| |exact I].
  - destruct H as (u & Hu & Et & L). exists u. split; [exact Hu|]. split; [exact Et|]. intros. rewrite E'. auto.
  - destruct H as (u & Et & Hs & D & c & C). exists u. split; [exact Et|]. split; [exact Hs|]. split; [intros; rewrite E'; auto|]. exists c. intros. rewrite E'. auto.
Qed.

Lemma errs_chain (ok1 ok2 : bytes -> Prop) (N1 N2 : bytes -> bytes -> Prop) f f' g g' d : errs ok1 N1 f f' -> errs ok2 N2 g g' ->
  (forall t t', hd_error t' = hd_error t -> N1 t t') -> (forall t t', N2 t t' -> hd_error t' = hd_error t \/ ok1 t') ->
  (forall r', ok2 r' -> ok1 (d ++ r') /\ g' (d ++ r') = Got r') -> errs ok2 N1 (chain f g) (chain f' g').
Proof.
  intros H1 H2 Hn1 Hn2 Hd t. change (chain f g t) with (match f t with Got r => g r | x => x end). specialize (H1 t). destruct (f t) as [r1|w r|]; [| |exact I].
  - destruct H1 as (u1 & Hu1 & -> & L1). specialize (H2 r1). destruct (g r1) as [r|w r|]; [| |exact I].
    + destruct H2 as (u2 & Hu2 & -> & L2). exists (u1 ++ u2). split; [destruct u1; [congruence|discriminate]|]. split; [rewrite app_assoc; reflexivity|].
      intros r' Hr. unfold chain. rewrite <- app_assoc, L1 by (left; apply hd_app; exact Hu2). auto.
    + destruct H2 as (u2 & -> & Hs & D & c & C). exists (u1 ++ u2). split; [rewrite app_assoc; reflexivity|]. split; [exact Hs|]. split.
      * intros Hw r' Hr. unfold chain. rewrite <- app_assoc, L1; [auto|]. left. destruct u2 as [|x u2]; [apply same_start_hd; exact Hr|reflexivity].
      * exists c. intros r' Hr. destruct (C r' Hr) as (C1 & C2 & C3). split; [exact C1|]. split.
        -- apply Hn1. rewrite <- app_assoc. apply hd_app. exact Hu1.
        -- unfold chain. rewrite <- app_assoc, L1 by (apply Hn2; exact C2). exact C3.
  - destruct H1 as (u & -> & Hs & D & c & C). exists u. split; [reflexivity|]. split; [exact Hs|]. split.
    + intros Hw r' Hr. unfold chain. rewrite D; auto.
    + exists (c ++ d). intros r' Hr. rewrite <- app_assoc. destruct (Hd r' Hr) as [Ho Hg]. destruct (C _ Ho) as (C1 & C2 & C3). split; [exact C1|]. split; [exact C2|].
      unfold chain. rewrite C3. exact Hg.
Qed.

Lemma errs_skip (ok : bytes -> Prop) (N : bytes -> bytes -> Prop) g g' : errs ok N g g' -> (forall t t', N t t' -> hd_error t' = hd_error t \/ no_space t') ->
  errs ok (fun t t' => hd_error t' = hd_error t \/ N t t') (chain e_skip g) (chain e_skip g').
Proof.
  intros H Hn t. change (chain e_skip g t) with (g (skipped t)). destruct (skipped_split t) as (b & E & Hb & Hs). set (t1 := skipped t) in *. clearbody t1. subst t.
  specialize (H t1). destruct (g t1) as [r|w r|]; [| |exact I].
  - destruct H as (u & Hu & -> & L). exists (b ++ u). split; [intros Z; apply app_eq_nil in Z; destruct Z; congruence|]. split; [rewrite app_assoc; reflexivity|].
    intros r' Hr. unfold chain, e_skip. rewrite <- app_assoc, skipped_ok; [auto|exact Hb|]. apply (hd_no_space (u ++ r)); [apply hd_app; exact Hu|exact Hs].
  - destruct H as (u & -> & Hw & D & c & C). exists (b ++ u). split; [rewrite app_assoc; reflexivity|]. split; [exact Hw|]. split.
    + intros Hx r' Hr. unfold chain, e_skip. rewrite <- app_assoc, skipped_ok; [auto|exact Hb|]. apply (hd_no_space (u ++ r)); [|exact Hs].
      destruct u; [apply same_start_hd; exact Hr|reflexivity].
    + exists c. intros r' Hr. destruct (C r' Hr) as (C1 & C2 & C3). split; [exact C1|]. rewrite <- app_assoc. split.
      * destruct b as [|x b]; [right; exact C2|left; reflexivity].
      * unfold chain, e_skip. rewrite skipped_ok; [exact C3|exact Hb|]. destruct (Hn _ _ C2) as [E|E]; [exact (hd_no_space _ _ E Hs)|exact E].
Qed.

(** ** The parsers of single tokens *)

Lemma errs_char c : (forall r, stands parse [39; c; 39] (c :: r)) -> (forall t, stands parse [39; c; 39] t -> hd_error t = Some c) -> errs anything (near c) (e_char c) (e_char c).
Proof.
  intros H1 H2 t.
  assert (forall s, hd_error s <> Some c -> e_char c s = Bad [39; c; 39] s) as Eb.
  { intros [|y s] Hy; [reflexivity|]. cbn [hd_error] in Hy. cbn [e_char]. destruct (N.eqb_spec y c); [congruence|reflexivity]. }
  assert (forall s, e_char c (c :: s) = Got s) as Eg by (intros; cbn [e_char]; rewrite N.eqb_refl; reflexivity).
  assert (hd_error t <> Some c \/ exists s, t = c :: s) as [Hx|[s ->]].
  { destruct t as [|x s]; [left; discriminate|]. destruct (N.eq_dec x c) as [->|]; [right; eauto|left; cbn; congruence]. }
  - rewrite (Eb _ Hx). exists []. split; [reflexivity|]. split; [intros Z; apply Hx, H2, Z|]. split.
    + intros _ r' Hr. apply Eb. cbn [app]. rewrite (same_start_hd _ _ Hr). exact Hx.
    + exists [c]. intros r' _. split; [apply H1|]. split; [right; reflexivity|]. apply Eg.
  - rewrite Eg. exists [c]. split; [discriminate|]. split; [reflexivity|]. intros r' _. apply Eg.
Qed.
Lemma comma_stands t : stands parse [39; chr_comma; 39] t -> hd_error t = Some chr_comma.
Proof. intros H. change [39; chr_comma; 39] with $"','" in H. inversion H; reflexivity. Qed.
Lemma close_stands t : stands parse [39; chr_close; 39] t -> hd_error t = Some chr_close.
Proof. intros H. change [39; chr_close; 39] with $"')'" in H. inversion H; reflexivity. Qed.
Lemma errs_comma : errs anything (near chr_comma) (e_char chr_comma) (e_char chr_comma).
Proof. apply errs_char; [exact (a_comma parse)|exact comma_stands]. Qed.
Lemma errs_close : errs anything (near chr_close) (e_char chr_close) (e_char chr_close).
Proof. apply errs_char; [exact (a_closing parse)|exact close_stands]. Qed.

Lemma space_stands t : stands parse $"whitespace" t -> exists c r, t = c :: r /\ is_space c = true.
Proof. intros H. inversion H as [| | |c r Hb| | | | | |]; subst. exists c, r. split; [reflexivity|]. apply is_space_blank. inversion Hb; assumption. Qed.
Lemma errs_space : errs no_space (near 32) e_space e_space.
Proof.
  intros t.
  assert (forall s, no_space s -> e_space s = Bad $"whitespace" s) as Eb by (intros [|y s] Hy; [reflexivity|]; cbn [e_space no_space] in *; rewrite Hy; reflexivity).
  assert (forall b r, b <> [] -> blank b -> no_space r -> e_space (b ++ r) = Got r) as Eg.
  { intros [|x b] r Hn Hb Hr; [congruence|]. rewrite <- (skipped_ok (x :: b) r Hb Hr) at 2. cbn [app e_space]. inversion Hb as [|? ? Hx]; subst. apply is_space_blank in Hx. rewrite Hx. reflexivity. }
  destruct (span_space t) as (b & r & -> & Hb & Hr). destruct (list_eq_dec N.eq_dec b []) as [->|Hn].
  - cbn [app]. rewrite (Eb r Hr). exists []. split; [reflexivity|]. split; [intros Z; destruct (space_stands _ Z) as (c & s & -> & Hc); cbn in Hr; congruence|]. split.
    + intros _ r' H. apply Eb. exact (hd_no_space _ _ (same_start_hd _ _ H) Hr).
    + exists $" ". intros r' H. split; [apply (whitespace parse 32 r'); constructor; [left; reflexivity|constructor]|]. split; [right; reflexivity|]. apply (Eg $" " r'); [discriminate|constructor; [left; reflexivity|constructor]|exact H].
  - rewrite (Eg b r Hn Hb Hr). exists b. split; [exact Hn|]. split; [reflexivity|]. intros r' [H|H]; apply Eg; auto. exact (hd_no_space _ _ H Hr).
Qed.

Lemma ordinate_got w r : plain w -> word_end r -> parse w <> None -> e_ordinate parse (w ++ r) = Got r.
Proof.
  intros Hw Hr Hp. unfold e_ordinate. rewrite (word_at_ok w r Hw Hr). destruct (parse w); [|congruence]. rewrite skipn_app, skipn_all, Nat.sub_diag. reflexivity.
Qed.
Lemma ordinate_bad t : parse (word_at t) = None -> e_ordinate parse t = Bad $"number" t.
Proof. intros H. unfold e_ordinate. rewrite H. reflexivity. Qed.
Lemma number_stands t : stands parse $"number" t -> parse (word_at t) <> None.
Proof. intros H. inversion H as [| | | | | |w t' Hp Hw| | |]; subst. rewrite (starts_word_at _ _ Hw). exact Hp. Qed.
Lemma plain_zero : plain $"0".
Proof. constructor; [|constructor]. intros H. cbn in H. repeat destruct H as [H|H]; try discriminate H. exact H. Qed.
Lemma errs_ordinate : errs word_end (near 48) (e_ordinate parse) (e_ordinate parse).
Proof.
  intros t. destruct (parse (word_at t)) eqn:Ep.
  - destruct (word_at_split t) as (r & E & Hw & Hr). set (w := word_at t) in *. clearbody w. subst t. rewrite ordinate_got by (auto; congruence).
    exists w. split; [intros ->; congruence|]. split; [reflexivity|]. intros r' [H|H]; apply ordinate_got; auto; try congruence. exact (hd_word_end _ _ H Hr).
  - rewrite (ordinate_bad _ Ep). exists []. split; [reflexivity|]. split; [intros Z; exact (number_stands _ Z Ep)|]. split.
    + intros _ r' H. apply ordinate_bad. cbn [app]. rewrite (same_start_word _ _ H). exact Ep.
    + exists $"0". intros r' H. split; [apply (a_number parse $"0"); [exact zero|]; split; [exact plain_zero|]; exists r'; split; [reflexivity|exact H]|]. split; [right; reflexivity|].
      apply (ordinate_got $"0" r' plain_zero H zero).
Qed.

(** ** Coordinates *)

Fixpoint zeros (n : nat) : bytes := match n with O => $"0" | S n => $"0 " ++ zeros n end.
Lemma zeros_hd n r : hd_error (zeros n ++ r) = Some 48.
Proof. destruct n; reflexivity. Qed.
Lemma zeros_no_space n r : no_space (zeros n ++ r).
Proof. destruct n; reflexivity. Qed.
Lemma coordinate_S n t : e_coordinate parse (S n) t = chain (e_ordinate parse) (chain e_space (e_coordinate parse n)) t.
Proof. reflexivity. Qed.
Lemma coordinate_0 t : e_coordinate parse 0 t = e_ordinate parse t.
Proof. unfold e_coordinate, chain. cbn [e_ordinates]. destruct (e_ordinate parse t); reflexivity. Qed.
Lemma space_got r : no_space r -> e_space ($" " ++ r) = Got r.
Proof. intros H. change (e_space ($" " ++ r)) with (Got (skipped ([32] ++ r))). rewrite skipped_ok; [reflexivity|constructor; [left; reflexivity|constructor]|exact H]. Qed.
Lemma coordinate_fin n : forall r, word_end r -> e_coordinate parse n (zeros n ++ r) = Got r.
Proof.
  induction n as [|n IH]; intros r Hr.
  - rewrite coordinate_0. apply ordinate_got; [exact plain_zero|exact Hr|exact zero].
  - rewrite coordinate_S. unfold chain. cbn [zeros]. change ($"0 ") with ($"0" ++ $" "). rewrite <- !app_assoc.
    rewrite ordinate_got; [|exact plain_zero|right; left; reflexivity|exact zero]. rewrite space_got by apply zeros_no_space. apply IH. exact Hr.
Qed.
Lemma errs_coordinate n : errs word_end (near 48) (e_coordinate parse n) (e_coordinate parse n).
Proof.
  induction n as [|n IH]; [exact (errs_ext _ _ _ _ _ _ coordinate_0 coordinate_0 errs_ordinate)|].
  refine (errs_ext _ _ _ _ _ _ (coordinate_S n) (coordinate_S n) _).
  apply (errs_chain word_end word_end (near 48) (near 32) _ _ _ _ ($" " ++ zeros n)); [exact errs_ordinate| |left; assumption| |].
  - apply (errs_chain no_space word_end (near 32) (near 48) _ _ _ _ (zeros n)); [exact errs_space|exact IH|left; assumption| |].
    + intros t t' [E|E]; [left; exact E|right]. destruct t'; [discriminate E|]. injection E as ->. reflexivity.
    + intros r' Hr. split; [apply zeros_no_space|apply coordinate_fin; exact Hr].
  - intros t t' [E|E]; [left; exact E|right]. destruct t'; [discriminate E|]. injection E as ->. right; left; reflexivity.
  - intros r' Hr. split; [right; left; reflexivity|]. unfold chain. rewrite <- app_assoc, space_got by apply zeros_no_space. apply coordinate_fin. exact Hr.
Qed.

(** ** Loops *)

Definition shrinks (f : bytes -> reading) : Prop := forall t r, f t = Got r -> (length r <= length t)%nat.
Lemma shrinks_chain f g : shrinks f -> shrinks g -> shrinks (chain f g).
Proof. intros Hf Hg t r. unfold chain. destruct (f t) as [s| |] eqn:E; try discriminate. intros E'. specialize (Hf _ _ E). specialize (Hg _ _ E'). lia. Qed.
Lemma shrinks_skip : shrinks e_skip.
Proof. intros t r E. injection E as <-. apply skipped_length. Qed.
Lemma char_length c t r : e_char c t = Got r -> (length r < length t)%nat.
Proof. destruct t as [|x t]; cbn [e_char]; [discriminate|]. destruct (x =? c); [|discriminate]. intros E. injection E as <-. cbn. lia. Qed.
Lemma shrinks_char c : shrinks (e_char c).
Proof. intros t r E. apply char_length in E. lia. Qed.
Lemma shrinks_more item : shrinks item -> forall n, shrinks (e_more n item).
Proof.
  intros Hi. induction n as [|n IH]; intros t r; cbn [e_more]; (destruct (hd 0 t =? chr_close); [intros E; injection E as <-; destruct t; cbn; lia|]); [discriminate|].
  apply shrinks_chain; [apply shrinks_skip|]. apply shrinks_chain; [apply shrinks_char|]. apply shrinks_chain; [apply shrinks_skip|]. apply shrinks_chain; [exact Hi|].
  apply shrinks_chain; [apply shrinks_skip|exact IH].
Qed.
Lemma shrinks_rest item : shrinks item -> shrinks (e_rest item).
Proof. intros H t r. apply (shrinks_more item H). Qed.
Lemma shrinks_items item : shrinks item -> shrinks (e_items item).
Proof. intros H. apply shrinks_chain; [exact H|]. apply shrinks_chain; [apply shrinks_skip|]. apply shrinks_rest; exact H. Qed.
Lemma shrinks_empty : shrinks e_empty.
Proof. intros t r. unfold e_empty. destruct (word_is _ _); [|discriminate]. intros E. assert (r = skipn 5 t) as -> by congruence. rewrite skipn_length. lia. Qed.
Lemma shrinks_paren l : shrinks l -> shrinks (e_paren l).
Proof.
  intros H t r. unfold e_paren. destruct (hd 0 t =? chr_open); [|apply shrinks_empty]. intros E. apply H in E.
  pose proof (skipped_length (skipn 1 t)). rewrite skipn_length in *. lia.
Qed.
Lemma errs_shrinks ok N f f' : errs ok N f f' -> shrinks f.
Proof. intros H t r E. specialize (H t). rewrite E in H. destruct H as (u & _ & -> & _). rewrite app_length. lia. Qed.

(** Two parsers that agree on texts shorter than [b]. *)
Definition agree (b : nat) (f f' : bytes -> reading) : Prop := forall t, (length t < b)%nat -> f t = f' t.
Lemma agree_chain b f f' g g' : shrinks f -> agree b f f' -> agree b g g' -> agree b (chain f g) (chain f' g').
Proof. intros Hs Hf Hg t Ht. unfold chain. rewrite <- (Hf t Ht). destruct (f t) as [r| |] eqn:E; try reflexivity. apply Hg. apply Hs in E. lia. Qed.
Lemma agree_refl b f : agree b f f.
Proof. intros t _. reflexivity. Qed.
Lemma agree_comma t A B : agree (length t) A B -> chain e_skip (chain (e_char chr_comma) A) t = chain e_skip (chain (e_char chr_comma) B) t.
Proof.
  intros H. unfold chain, e_skip. destruct (e_char chr_comma (skipped t)) as [r| |] eqn:E; try reflexivity. apply H. apply char_length in E. pose proof (skipped_length t). lia.
Qed.
Lemma agree_more item item' : shrinks item -> forall b n m, agree b item item' -> (b <= n)%nat -> (b <= m)%nat -> agree b (e_more n item) (e_more m item').
Proof.
  intros Hs. induction b as [|b IH]; intros n m Hi Hn Hm t Ht; [lia|]. destruct n as [|n]; [lia|]. destruct m as [|m]; [lia|]. cbn [e_more].
  destruct (hd 0 t =? chr_close); [reflexivity|]. apply agree_comma.
  assert (agree b item item') as Hb by (intros x Hx; apply Hi; lia).
  assert (agree b (chain e_skip (chain item (chain e_skip (e_more n item)))) (chain e_skip (chain item' (chain e_skip (e_more m item'))))) as H.
  { apply agree_chain; [apply shrinks_skip|apply agree_refl|]. apply agree_chain; [exact Hs|exact Hb|].
    apply agree_chain; [apply shrinks_skip|apply agree_refl|]. apply IH; [exact Hb|lia|lia]. }
  intros x Hx. apply H. lia.
Qed.
Lemma rest_unfold item t : shrinks item -> e_rest item t =
  if hd 0 t =? chr_close then Got (skipn 1 t) else chain e_skip (chain (e_char chr_comma) (chain e_skip (chain item (chain e_skip (e_rest item))))) t.
Proof.
  intros Hs. unfold e_rest at 1. cbn [e_more]. destruct (hd 0 t =? chr_close); [reflexivity|]. apply agree_comma.
  apply agree_chain; [apply shrinks_skip|apply agree_refl|]. apply agree_chain; [exact Hs|apply agree_refl|].
  apply agree_chain; [apply shrinks_skip|apply agree_refl|]. intros x Hx. unfold e_rest. apply (agree_more item item Hs (S (length x))); [apply agree_refl|lia|lia|lia].
Qed.

Lemma close_end r : word_end ($")" ++ r).
Proof. change (ends_word 41). unfold ends_word. cbn. auto 12. Qed.
Lemma rest_close item r : e_rest item ($")" ++ r) = Got r.
Proof. reflexivity. Qed.
Lemma skip_rest_close item r : chain e_skip (e_rest item) ($")" ++ r) = Got r.
Proof. reflexivity. Qed.

(** A token that is neither whitespace nor a closing parenthesis. *)
Definition token (d : bytes) : Prop := match d with c :: _ => is_space c = false /\ c <> 41 | [] => False end.
Lemma token_no_space d r : token d -> no_space (d ++ r).
Proof. destruct d as [|c d]; [intros []|]. intros [H _]. exact H. Qed.

Section Loop.
Variables (item item' : bytes -> reading) (c : N) (d : bytes).
Hypothesis Hi : errs word_end (near c) item item'.
Hypothesis Hs : shrinks item'.
Hypothesis Hc : is_space c = false.
Hypothesis Hd : token d.
Hypothesis Hfin : forall r, word_end r -> item' (d ++ r) = Got r.

Lemma near_space x t t' : is_space x = false -> near x t t' -> hd_error t' = hd_error t \/ no_space t'.
Proof. intros Hx [E|E]; [left; exact E|right]. destruct t'; [exact I|]. injection E as ->. exact Hx. Qed.
Lemma near_end x t t' : ends_word x -> near x t t' -> hd_error t' = hd_error t \/ word_end t'.
Proof. intros Hx [E|E]; [left; exact E|right]. destruct t'; [exact I|]. injection E as ->. exact Hx. Qed.
Lemma near_twice x t t' : hd_error t' = hd_error t \/ near x t t' -> near x t t'.
Proof. intros [E|E]; [left; exact E|exact E]. Qed.

(** An item and what follows it. *)
Lemma errs_item_rest more : errs anything (near chr_comma) more (e_rest item') -> errs anything (near c) (chain item (chain e_skip more)) (chain item' (chain e_skip (e_rest item'))).
Proof.
  intros Hm. apply (errs_chain word_end anything (near c) (near chr_comma) _ _ _ _ $")"); [exact Hi| |left; assumption| |].
  - apply (errs_weaken anything anything (fun t t' => hd_error t' = hd_error t \/ near chr_comma t t')); [|auto|apply near_twice].
    apply errs_skip; [exact Hm|]. intros t t'. apply near_space. reflexivity.
  - intros t t'. apply near_end. unfold ends_word, chr_comma. cbn. auto 10.
  - intros r _. split; [apply close_end|reflexivity].
Qed.
Lemma errs_more n : errs anything (near chr_comma) (e_more n item) (e_rest item').
Proof.
  induction n as [|n IH]; intros t.
  - cbn [e_more]. destruct (N.eqb_spec (hd 0 t) chr_close) as [E|E]; [|exact I]. destruct t as [|x t]; [discriminate E|]. cbn [hd] in E. subst x. exists [chr_close].
    split; [discriminate|]. split; [reflexivity|]. intros r' _. apply rest_close.
  - cbn [e_more]. destruct (N.eqb_spec (hd 0 t) chr_close) as [E|E].
    { destruct t as [|x t]; [discriminate E|]. cbn [hd] in E. subst x. exists [chr_close]. split; [discriminate|]. split; [reflexivity|]. intros r' _. apply rest_close. }
    assert (forall s, hd 0 s <> chr_close -> e_rest item' s = chain e_skip (chain (e_char chr_comma) (chain e_skip (chain item' (chain e_skip (e_rest item'))))) s) as U.
    { intros s H. rewrite (rest_unfold item' s Hs). destruct (N.eqb_spec (hd 0 s) chr_close); [congruence|reflexivity]. }
    assert (errs anything (near chr_comma) (chain e_skip (chain (e_char chr_comma) (chain e_skip (chain item (chain e_skip (e_more n item))))))
              (chain e_skip (chain (e_char chr_comma) (chain e_skip (chain item' (chain e_skip (e_rest item'))))))) as G.
    { apply (errs_weaken anything anything (fun t t' => hd_error t' = hd_error t \/ near chr_comma t t')); [|auto|apply near_twice].
      apply errs_skip; [|intros s s'; apply near_space; reflexivity].
      apply (errs_chain anything anything (near chr_comma) (fun t t' => hd_error t' = hd_error t \/ near c t t') _ _ _ _ (d ++ $")")); [exact errs_comma| |left; assumption| |].
      - apply errs_skip; [apply errs_item_rest; exact IH|]. intros s s'. apply near_space. exact Hc.
      - intros; right; exact I.
      - intros r _. split; [exact I|]. rewrite <- app_assoc. unfold chain at 1, e_skip at 1. rewrite skipped_id by (apply token_no_space; exact Hd).
        unfold chain at 1. rewrite Hfin by apply close_end. apply skip_rest_close. }
    specialize (G t). destruct (chain e_skip _ t) as [r|w r|]; [| |exact I].
    + destruct G as (u & Hu & -> & L). exists u. split; [exact Hu|]. split; [reflexivity|]. intros r' H. rewrite U; [auto|].
      rewrite (hd_hd (u ++ r)) by (apply hd_app; exact Hu). exact E.
    + destruct G as (u & -> & Hw & D & c0 & C). exists u. split; [reflexivity|]. split; [exact Hw|]. split.
      * intros Hx r' H. rewrite U; [auto|]. rewrite (hd_hd (u ++ r)); [exact E|]. destruct u; [apply same_start_hd; exact H|reflexivity].
      * exists c0. intros r' H. destruct (C r' H) as (C1 & C2 & C3). split; [exact C1|]. split; [exact C2|]. rewrite U; [exact C3|].
        destruct C2 as [C2|C2]; [rewrite (hd_hd _ _ C2); exact E|]. destruct (u ++ c0 ++ r'); [discriminate C2|]. injection C2 as ->. discriminate.
Qed.
Lemma errs_items : errs anything (near c) (e_items item) (e_items item').
Proof. apply errs_item_rest. intros t. unfold e_rest at 1. apply errs_more. Qed.
Lemma items_fin r : e_items item' (d ++ $")" ++ r) = Got r.
Proof. unfold e_items, chain at 1. rewrite Hfin by apply close_end. apply skip_rest_close. Qed.
End Loop.
End Parser.
