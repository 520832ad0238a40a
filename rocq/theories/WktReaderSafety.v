From Verif Require Import Base BaseFacts Text GeomSpec GeomFacts VisitorModel VisitorSpec VisitorFacts GeomVisitSafety WktReaderModel.
Local Open Scope Z_scope.

Section Parser.
Variable parse : bytes -> option N.

(** ** Error propagation *)
Lemma lawful_flush s : lawful (flush_cache s).
Proof. unfold flush_cache. destruct (r_cache s) as [[|c cs]|]; try constructor; [|constructor]. intros c0 Hc. destruct (Z.eqb_spec c0 0); [contradiction|reflexivity]. Qed.
Lemma lawful_coordinate s : lawful (read_coordinate parse s).
Proof.
  unfold read_coordinate. apply lawful_bind; [constructor|intros cs]. apply lawful_bind; [destruct (_ =? _)%nat; [apply lawful_flush|constructor]|intros s1].
  apply lawful_bind; [constructor|intros [w s2]]. apply lawful_bind; [constructor|intros [ws s3]]. apply lawful_bind; [constructor|intros cs3].
  destruct (_ <=? _)%nat; constructor.
Qed.
Lemma lawful_more item : (forall s, lawful (item s)) -> forall fuel s, lawful (more_items fuel item s).
Proof.
  intros H. induction fuel as [|f IH]; intros s; cbn [more_items]; (apply lawful_bind; [constructor|intros c]); destruct (_ =? _)%N; try constructor.
  do 3 (apply lawful_bind; [constructor|intros ?s]). apply lawful_bind; [apply H|intros ?s]. apply lawful_bind; [constructor|intros ?s]. apply IH.
Qed.
Lemma lawful_empty_or l : (forall s, lawful (l s)) -> forall s, lawful (empty_or l s).
Proof.
  intros H s. unfold empty_or. do 2 (apply lawful_bind; [constructor|intros ?x]). destruct (_ =? _)%N; [|constructor].
  do 2 (apply lawful_bind; [constructor|intros ?x]). apply H.
Qed.
Lemma lawful_items item : (forall s, lawful (item s)) -> forall s, lawful (read_items item s).
Proof.
  intros H s. unfold read_items. apply lawful_bind; [apply H|intros s1]. apply lawful_bind; [constructor|intros s2].
  apply lawful_bind; [apply lawful_more; exact H|intros s3]. constructor.
Qed.
Lemma lawful_coordinates s : lawful (read_coordinates parse s).
Proof.
  apply lawful_empty_or. clear s. intros s. apply lawful_bind; [apply lawful_coordinate|intros s1]. apply lawful_bind; [constructor|intros s2].
  apply lawful_bind; [apply lawful_more, lawful_coordinate|intros s3]. apply lawful_bind; [apply lawful_flush|intros s4]. constructor.
Qed.
Lemma lawful_point s : lawful (read_point parse s).
Proof.
  apply lawful_empty_or. clear s. intros s. apply lawful_bind; [apply lawful_coordinate|intros s1]. apply lawful_bind; [apply lawful_flush|intros s4].
  apply lawful_bind; constructor.
Qed.
Lemma lawful_ring s : lawful (read_ring parse s).
Proof.
  apply lawful_bind; [apply lawful_emit|intros _]. apply lawful_bind; [apply lawful_coordinates|intros s1]. apply lawful_bind; [apply lawful_emit|intros _]. constructor.
Qed.
Lemma lawful_polygon s : lawful (read_polygon parse s).
Proof. apply lawful_empty_or, lawful_items, lawful_ring. Qed.
Lemma lawful_member t d body : (forall s, lawful (body s)) -> forall s, lawful (read_member t d body s).
Proof.
  intros H s. apply lawful_bind; [apply lawful_emit|intros _]. apply lawful_bind; [apply H|intros s1]. apply lawful_bind; [apply lawful_emit|intros _]. constructor.
Qed.
Lemma lawful_flat_point d s : lawful (flat_point parse d s).
Proof.
  apply lawful_bind; [apply lawful_emit|intros _]. apply lawful_bind; [apply lawful_coordinate|intros s1]. apply lawful_bind; [apply lawful_flush|intros s2].
  apply lawful_bind; [apply lawful_emit|intros _]. constructor.
Qed.
Lemma lawful_multipoint d s : lawful (read_multipoint parse d s).
Proof.
  apply lawful_empty_or. clear s. intros s. apply lawful_bind; [constructor|intros c]. destruct (_ && _)%bool.
  - apply lawful_bind; [constructor|intros s1]. apply lawful_bind; [constructor|intros s2]. apply lawful_items, lawful_flat_point.
  - apply lawful_items, lawful_member, lawful_point.
Qed.
Lemma lawful_tagged fuel : forall s, lawful (read_tagged parse fuel s).
Proof.
  induction fuel as [|f IH]; intros s; cbn [read_tagged]; [constructor|]. do 2 (apply lawful_bind; [constructor|intros ?x]).
  destruct (type_of_word _) as [t|]; [|constructor]. do 3 (apply lawful_bind; [constructor|intros ?x]). destruct (dims_of_word _) as [[d n] k].
  apply lawful_bind; [constructor|intros s3]. apply lawful_bind; [apply lawful_emit|intros _].
  apply lawful_bind; [|intros s4; apply lawful_bind; [apply lawful_emit|intros _; constructor]].
  repeat match goal with |- lawful (if ?b then _ else _) => destruct b end; auto using lawful_point, lawful_coordinates, lawful_polygon, lawful_multipoint.
  - apply lawful_empty_or, lawful_items, lawful_member, lawful_coordinates.
  - apply lawful_empty_or, lawful_items, lawful_member, lawful_polygon.
  - apply lawful_empty_or, lawful_items, IH.
Qed.
Lemma lawful_wkt_visit s0 src : lawful (wkt_visit parse s0 src).
Proof.
  unfold wkt_visit. apply lawful_bind; [apply lawful_emit|intros _]. apply lawful_bind; [apply lawful_tagged|intros s1].
  apply lawful_bind; [apply lawful_emit|intros _]. do 2 (apply lawful_bind; [constructor|intros ?x]). destruct (_ =? _)%N; constructor.
Qed.

(** ** Nesting *)
Lemma nests_ret_bind {A B} (o : outcome A) (f : A -> prog B) st st' : (forall a, nests (f a) st st') -> nests (pbind (Ret o) f) st st'.
Proof. intros H. eapply nests_bind; [apply nests_ret|exact H]. Qed.
Lemma nests_flush s st : takes_coords st -> nests (flush_cache s) st st.
Proof.
  intros H. unfold flush_cache. destruct (r_cache s) as [[|c cs]|]; try apply nests_ret. eapply nests_bind; [apply nests_coords; exact H|intros _; apply nests_ret].
Qed.
Lemma nests_coordinate s st : takes_coords st -> nests (read_coordinate parse s) st st.
Proof.
  intros H. unfold read_coordinate. apply nests_ret_bind. intros cs.
  eapply nests_bind; [destruct (_ =? _)%nat; [apply nests_flush; exact H|apply nests_ret]|intros s1].
  apply nests_ret_bind. intros [w s2]. apply nests_ret_bind. intros [ws s3]. apply nests_ret_bind. intros cs3. destruct (_ <=? _)%nat; apply nests_ret.
Qed.
Lemma nests_more item st : (forall s, nests (item s) st st) -> forall fuel s, nests (more_items fuel item s) st st.
Proof.
  intros H. induction fuel as [|f IH]; intros s; cbn [more_items]; apply nests_ret_bind; intros c; destruct (_ =? _)%N; try apply nests_ret.
  do 3 (apply nests_ret_bind; intros ?s). eapply nests_bind; [apply H|intros ?s]. apply nests_ret_bind. intros ?s. apply IH.
Qed.
Lemma nests_empty_or l st : (forall s, nests (l s) st st) -> forall s, nests (empty_or l s) st st.
Proof.
  intros H s. unfold empty_or. do 2 (apply nests_ret_bind; intros ?x). destruct (_ =? _)%N; [|apply nests_ret]. do 2 (apply nests_ret_bind; intros ?x). apply H.
Qed.
Lemma nests_items item st : (forall s, nests (item s) st st) -> forall s, nests (read_items item s) st st.
Proof.
  intros H s. unfold read_items. eapply nests_bind; [apply H|intros s1]. apply nests_ret_bind. intros s2.
  eapply nests_bind; [apply nests_more; exact H|intros s3]. apply nests_ret.
Qed.
Lemma nests_coordinates s st : takes_coords st -> nests (read_coordinates parse s) st st.
Proof.
  intros H. apply nests_empty_or. clear s. intros s. eapply nests_bind; [apply nests_coordinate; exact H|intros s1]. apply nests_ret_bind. intros s2.
  eapply nests_bind; [apply nests_more; intros; apply nests_coordinate; exact H|intros s3]. eapply nests_bind; [apply nests_flush; exact H|intros s4]. apply nests_ret.
Qed.
Lemma nests_point s st : takes_coords st -> nests (read_point parse s) st st.
Proof.
  intros H. apply nests_empty_or. clear s. intros s. eapply nests_bind; [apply nests_coordinate; exact H|intros s1]. eapply nests_bind; [apply nests_flush; exact H|intros s4].
  apply nests_ret_bind. intros s5. apply nests_ret.
Qed.
Lemma nests_ring s st : nests (read_ring parse s) (FGeom :: st) (FGeom :: st).
Proof.
  eapply nests_bind; [apply (nests_emit _ _ (FRing :: FGeom :: st)); reflexivity|intros _]. eapply nests_bind; [apply nests_coordinates; exact I|intros s1].
  eapply nests_bind; [apply (nests_emit _ _ (FGeom :: st)); reflexivity|intros _]. apply nests_ret.
Qed.
Lemma nests_polygon s st : nests (read_polygon parse s) (FGeom :: st) (FGeom :: st).
Proof. apply nests_empty_or, nests_items. intros. apply nests_ring. Qed.
Lemma nests_member t d body st : (forall s, nests (body s) (FGeom :: FGeom :: st) (FGeom :: FGeom :: st)) -> forall s,
  nests (read_member t d body s) (FGeom :: st) (FGeom :: st).
Proof.
  intros H s. eapply nests_bind; [apply (nests_emit _ _ (FGeom :: FGeom :: st)); reflexivity|intros _]. eapply nests_bind; [apply H|intros s1].
  eapply nests_bind; [apply (nests_emit _ _ (FGeom :: st)); reflexivity|intros _]. apply nests_ret.
Qed.
Lemma nests_flat_point d s st : nests (flat_point parse d s) (FGeom :: st) (FGeom :: st).
Proof.
  eapply nests_bind; [apply (nests_emit _ _ (FGeom :: FGeom :: st)); reflexivity|intros _]. eapply nests_bind; [apply nests_coordinate; exact I|intros s1].
  eapply nests_bind; [apply nests_flush; exact I|intros s2].
  eapply nests_bind; [apply (nests_emit _ _ (FGeom :: st)); reflexivity|intros _]. apply nests_ret.
Qed.
Lemma nests_multipoint d s st : nests (read_multipoint parse d s) (FGeom :: st) (FGeom :: st).
Proof.
  apply nests_empty_or. clear s. intros s. apply nests_ret_bind. intros c. destruct (_ && _)%bool.
  - apply nests_ret_bind. intros s1. apply nests_ret_bind. intros s2. apply nests_items. intros. apply nests_flat_point.
  - apply nests_items, nests_member. intros. apply nests_point. exact I.
Qed.
Lemma nests_tagged fuel : forall s f st, f <> FRing -> nests (read_tagged parse fuel s) (f :: st) (f :: st).
Proof.
  induction fuel as [|fu IH]; intros s f st Hf; cbn [read_tagged]; [apply nests_ret|]. do 2 (apply nests_ret_bind; intros ?x).
  destruct (type_of_word _) as [t|]; [|apply nests_ret]. do 3 (apply nests_ret_bind; intros ?x). destruct (dims_of_word _) as [[d n] k].
  apply nests_ret_bind. intros s3. eapply nests_bind; [apply (nests_emit _ _ (FGeom :: f :: st)); destruct f; try reflexivity; contradiction|intros _].
  apply (nests_bind _ _ _ (FGeom :: f :: st)).
  2:{ intros s4. eapply nests_bind; [apply (nests_emit _ _ (f :: st)); reflexivity|intros _; apply nests_ret]. }
  repeat match goal with |- nests (if ?b then _ else _) _ _ => destruct b end.
  - apply nests_point. exact I.
  - apply nests_coordinates. exact I.
  - apply nests_polygon.
  - apply nests_multipoint.
  - apply nests_empty_or, nests_items, nests_member. intros. apply nests_coordinates. exact I.
  - apply nests_empty_or, nests_items, nests_member. intros. apply nests_polygon.
  - apply nests_empty_or, nests_items. intros. apply IH. discriminate.
Qed.
Lemma nests_wkt_visit s0 src : nests (wkt_visit parse s0 src) [] [].
Proof.
  unfold wkt_visit. eapply nests_bind; [apply (nests_emit _ _ [FFeat]); reflexivity|intros _]. eapply nests_bind; [apply nests_tagged; discriminate|intros s1].
  eapply nests_bind; [apply (nests_emit _ _ []); reflexivity|intros _]. do 2 (apply nests_ret_bind; intros ?x). destruct (_ =? _)%N; apply nests_ret.
Qed.
End Parser.
