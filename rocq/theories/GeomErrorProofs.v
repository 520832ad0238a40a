(** * Proofs about the messages about geometries *)
From Verif Require Import Base BaseFacts Text TypesModel NodesModel GeomSpec VisitorModel VisitorSpec VisitorFacts BufferModel GeomVisitModel
  GeomVisitSafety CopyCoordsModel GeomBuildModel WktErrorModel WktErrorSpec WktErrorMessages TruncatedSpec GeomErrorModel GeomErrorSpec.
Local Open Scope Z_scope.

(** ** Without the texts it is the visit *)
Definition erased {A} (p : passage A) : outcome A :=
  match p with Passed a => Ok a | Refused code _ => Err code | Outside => UB | Spent => NoFuel end.

Lemma snd_bind {A B} (p : prog A) (f : A -> prog B) :
  snd (trace (pbind p f)) = match snd (trace p) with Ok a => snd (trace (f a)) | Err c => Err c | UB => UB | NoFuel => NoFuel end.
Proof. rewrite trace_bind. destruct (trace p) as [e [a|c| |]]; try reflexivity. cbn [snd]. destruct (trace (f a)). reflexivity. Qed.

Lemma erased_bind {A B} (p : prog A) (f : A -> prog B) q g : snd (trace p) = erased q -> (forall a, snd (trace (f a)) = erased (g a)) ->
  snd (trace (pbind p f)) = erased (pass_on q g).
Proof. intros H1 H2. rewrite snd_bind, H1. destruct q; cbn [erased pass_on]; auto. Qed.

Lemma erased_then {A B} (p : prog A) q (g : A -> B) : snd (trace p) = erased q ->
  snd (trace (pbind p (fun a => Ret (Ok (g a))))) = erased (pass_on q (fun a => Passed (g a))).
Proof. intros H. apply erased_bind; [exact H|reflexivity]. Qed.

Lemma snd_emit {A} e (p : prog A) : snd (trace (pbind (emit e) (fun _ => p))) = snd (trace p).
Proof. rewrite snd_bind. reflexivity. Qed.

Lemma erased_sequence m nd : snd (trace (visit_sequence m nd)) = erased (e_sequence m nd).
Proof. unfold e_sequence. destruct (snd (trace (visit_sequence m nd))); reflexivity. Qed.

Lemma get_cases nodes i : (exists nd, get_node nodes i = Ok nd) \/ get_node nodes i = UB.
Proof.
  unfold get_node. destruct (i <? 0); [right; reflexivity|]. destruct (nth_error nodes (Z.to_nat i)); [left; eexists; reflexivity|right; reflexivity].
Qed.
Lemma erased_get nodes i : snd (trace (Ret (get_node nodes i))) = erased (e_get nodes i).
Proof. unfold e_get. cbn [trace snd]. destruct (get_cases nodes i) as [(nd & ->)| ->]; reflexivity. Qed.

Lemma erased_ring m nodes i : snd (trace (visit_ring m nodes i)) = erased (e_ring m nodes i).
Proof.
  unfold visit_ring, e_ring. rewrite snd_emit. apply erased_bind; [apply erased_get|]. intros nd.
  apply erased_bind; [apply erased_sequence|]. intros _. rewrite snd_emit. reflexivity.
Qed.

Lemma erased_loop {St} (body : St -> prog St) body' : (forall s, snd (trace (body s)) = erased (body' s)) ->
  forall fu n s, snd (trace (ploop fu n body s)) = erased (e_loop fu n body' s).
Proof.
  intros H. induction fu as [|fu IH]; intros n s; cbn [ploop e_loop]; destruct (N.eqb n 0); try reflexivity.
  apply erased_bind; [apply H|]. intros a. apply IH.
Qed.

Lemma erased_node m nodes : forall fuel i n, snd (trace (visit_node m nodes fuel i n)) = erased (e_node m nodes fuel i n).
Proof.
  induction fuel as [|f IH]; intros i n; [reflexivity|]. cbn [visit_node e_node].
  apply erased_bind; [apply erased_get|]. intros nd. rewrite snd_emit.
  assert (forall (p : prog Z), snd (trace (pbind p (fun n => run! emit EGeomEnd in Ret (Ok n)))) = snd (trace p)) as Hend.
  { intros p. rewrite snd_bind. destruct (snd (trace p)); try reflexivity. }
  rewrite Hend.
  destruct ((nd_type nd =? 1)%N || (nd_type nd =? 2)%N)%bool.
  { apply erased_bind; [apply erased_sequence|reflexivity]. }
  destruct (nd_type nd =? 3)%N.
  { destruct (n - 1 <? Z.of_N (nd_size nd)); [reflexivity|]. apply erased_bind; [|reflexivity]. apply erased_loop. apply erased_ring. }
  destruct ((nd_type nd =? 4)%N || (nd_type nd =? 5)%N || (nd_type nd =? 6)%N || (nd_type nd =? 7)%N)%bool; [|reflexivity].
  apply erased_bind; [|intros [? ?]; reflexivity].
  apply erased_loop. intros [c k]. apply erased_bind; [apply IH|reflexivity].
Qed.

Lemma erased_visit m nodes : snd (trace (view_visit m nodes)) = erased (e_visit m nodes).
Proof.
  unfold view_visit, e_visit. rewrite snd_emit. apply erased_bind; [apply erased_node|]. intros n.
  destruct (negb (n =? 0)); reflexivity.
Qed.

(** ** Sequences are never refused *)
Lemma row_err m nd i c : forall k j, node_row m nd i j k <> Err c.
Proof.
  induction k as [|k IH]; intros j; cbn [node_row]; [discriminate|].
  destruct (qget (nd_coords nd) j); cbn [or_ub obind]; [|discriminate].
  destruct (qget (nd_stride nd) j); cbn [or_ub obind]; [|discriminate].
  destruct (load64 m _); cbn [or_ub obind]; [|discriminate].
  specialize (IH (S j)). destruct (node_row m nd i (S j) k); cbn [obind]; try discriminate. intros E. injection E as ->. contradiction.
Qed.
Lemma rows_err m nd k c : forall n i, node_rows m nd i n k <> Err c.
Proof.
  induction n as [|n IH]; intros i; cbn [node_rows]; [discriminate|].
  pose proof (row_err m nd i c k 0) as H. destruct (node_row m nd i 0 k); cbn [obind]; try discriminate; [|intros E; injection E as ->; contradiction].
  specialize (IH (i + 1)). destruct (node_rows m nd (i + 1) n k); cbn [obind]; try discriminate. intros E. injection E as ->. contradiction.
Qed.
Lemma write_err m nd z c : write_sequence m nd z <> Err c.
Proof.
  unfold write_sequence. destruct (num_dimensions _); cbn [or_ub obind]; [|discriminate].
  destruct (z <? _); [discriminate|]. destruct (z <? _); [discriminate|].
  match goal with |- context [node_rows m nd ?i ?n ?k] => pose proof (rows_err m nd k c n i) as H; destruct (node_rows m nd i n k) end;
    cbn [obind]; try discriminate. intros E. injection E as ->. contradiction.
Qed.
Lemma chunk_err m nd n k c : snd (trace (visit_chunk m nd n k)) <> Err c.
Proof.
  unfold visit_chunk. rewrite snd_bind. cbn [trace snd].
  match goal with |- context [write_sequence ?a ?b ?z] => pose proof (write_err a b z c) as H; destruct (write_sequence a b z) as [[? w]|e| |] end;
    try discriminate; [|intros E; injection E as ->; contradiction].
  rewrite snd_bind. cbn [trace snd]. destruct w; cbn [or_ub]; discriminate.
Qed.
Lemma chunks_err m n k c : forall fuel nd z, snd (trace (visit_chunks fuel m nd z k n)) <> Err c.
Proof.
  induction fuel as [|f IH]; intros nd z; cbn [visit_chunks]; destruct (k <? z); try discriminate; try apply chunk_err.
  rewrite snd_bind. match goal with |- context [snd (trace (visit_chunk ?a ?b ?x ?y))] => pose proof (chunk_err a b x y c) as H;
    destruct (snd (trace (visit_chunk a b x y))) end; try discriminate; [apply IH|]. intros E. injection E as ->. contradiction.
Qed.
Lemma sequence_err m nd c : snd (trace (visit_sequence m nd)) <> Err c.
Proof.
  unfold visit_sequence. rewrite snd_bind. cbn [trace snd]. destruct (num_dimensions _) as [k|]; cbn [or_ub]; [|discriminate].
  destruct (k <? 0); [discriminate|]. apply chunks_err.
Qed.
Lemma e_sequence_ok m nd c t : e_sequence m nd <> Refused c t.
Proof.
  unfold e_sequence. destruct (snd (trace (visit_sequence m nd))) eqn:E; try discriminate. exfalso. exact (sequence_err _ _ _ E).
Qed.

(** ** What the texts say *)
Definition bad_type (nodes : list node) (t : bytes) : Prop :=
  exists nd, In nd nodes /\ ~ (1 <= nd_type nd <= 7)%N /\ t = $"Invalid geometry_type: " ++ print_ld (nd_type nd).
Definition good {A} (nodes : list node) (P : A -> Prop) (p : passage A) : Prop :=
  match p with
  | Passed a => P a
  | Refused c (Some t) => c = EINVAL /\ bad_type nodes t
  | Refused c None => c = EINVAL /\ ends_in_rings nodes
  | _ => True
  end.
Lemma good_bind {A B} nodes (P : A -> Prop) (Q : B -> Prop) p k : good nodes P p -> (forall a, P a -> good nodes Q (k a)) ->
  good nodes Q (pass_on p k).
Proof. destruct p as [a|c [t|]| |]; cbn [good pass_on]; auto. Qed.
Lemma good_sequence nodes m nd : good nodes (fun _ => True) (e_sequence m nd).
Proof. pose proof (e_sequence_ok m nd) as H. destruct (e_sequence m nd); cbn; auto. exfalso. eapply H. reflexivity. Qed.
Lemma good_get nodes : forall pre tail, nodes = pre ++ tail ->
  good nodes (fun nd => exists rest, tail = nd :: rest) (e_get nodes (Z.of_nat (length pre))).
Proof.
  intros pre tail ->. unfold e_get, get_node. destruct (Z.ltb_spec (Z.of_nat (length pre)) 0); [lia|]. rewrite Nat2Z.id.
  rewrite nth_error_app2, Nat.sub_diag by lia. destruct tail; cbn; auto. eexists. reflexivity.
Qed.
Lemma good_get_any nodes i : good nodes (fun _ => True) (e_get nodes i).
Proof. unfold e_get. destruct (get_cases nodes i) as [(nd & ->)| ->]; exact I. Qed.
Lemma good_ring nodes m i : good nodes (fun _ => True) (e_ring m nodes i).
Proof.
  unfold e_ring. eapply good_bind; [apply good_get_any|]. intros. eapply good_bind; [apply good_sequence|]. intros. exact I.
Qed.
Lemma good_rings nodes m : forall fu n i, good nodes (fun _ => True) (e_loop fu n (e_ring m nodes) i).
Proof.
  induction fu as [|fu IH]; intros n i; cbn [e_loop]; destruct (N.eqb n 0); try exact I.
  eapply good_bind; [apply good_ring|]. intros. apply IH.
Qed.

Definition node_good m nodes f : Prop := forall pre tail, nodes = pre ++ tail ->
  good nodes (fun n => exists front post, tail = front ++ post /\ tree front /\ n = Z.of_nat (length post))
    (e_node m nodes f (Z.of_nat (length pre)) (Z.of_nat (length tail))).

Lemma good_parts m nodes f : node_good m nodes f -> forall fu k pre tail, nodes = pre ++ tail ->
  good nodes (fun st => exists parts post, tail = concat parts ++ post /\ N.of_nat (length parts) = k /\ Forall tree parts /\
                snd st = Z.of_nat (length post))
    (e_loop fu k (fun st : Z * Z => let (child, n) := st in
       pass_on (e_node m nodes f child n) (fun n' => Passed (child + (n - n'), n'))) (Z.of_nat (length pre), Z.of_nat (length tail))).
Proof.
  intros Hn. induction fu as [|fu IH]; intros k pre tail E; cbn [e_loop].
  - destruct (N.eqb_spec k 0); [|exact I]. subst k. exists [], tail. repeat split; auto.
  - destruct (N.eqb_spec k 0); [subst k; exists [], tail; repeat split; auto|].
    eapply good_bind.
    { eapply good_bind; [exact (Hn _ _ E)|]. intros n' (front & post & E1 & Ht & E2).
      apply (fun H => H : good nodes (fun st => exists front post, tail = front ++ post /\ tree front /\
        st = (Z.of_nat (length (pre ++ front)), Z.of_nat (length post))) (Passed _)). cbn [good].
      exists front, post. split; [exact E1|]. split; [exact Ht|]. subst n' tail. rewrite !app_length. f_equal. lia. }
    intros st (front & post & E1 & Ht & ->).
    assert (nodes = (pre ++ front) ++ post) as E' by (rewrite <- app_assoc, <- E1; exact E).
    specialize (IH (k - 1)%N _ _ E'). revert IH. match goal with |- good _ _ ?p -> _ => destruct p as [a|c [t|]| |] end; cbn [good]; auto.
    intros (parts & post' & E2 & Hl & HF & E3). exists (front :: parts), post'. cbn [concat length].
    split; [rewrite <- app_assoc, <- E2; exact E1|]. split; [lia|]. split; [constructor; assumption|exact E3].
Qed.

Lemma good_node m nodes : forall f, node_good m nodes f.
Proof.
  induction f as [|f IH]; intros pre tail E; [exact I|]. cbn [e_node].
  eapply good_bind; [exact (good_get _ _ _ E)|]. intros nd (rest & Et).
  destruct ((nd_type nd =? 1)%N || (nd_type nd =? 2)%N)%bool eqn:E12.
  { eapply good_bind; [apply good_sequence|]. intros _ _. exists [nd], rest. split; [exact Et|].
    split; [|subst tail; cbn [length]; lia]. apply tree_sequence. apply orb_true_iff in E12.
    destruct E12 as [H|H]; apply N.eqb_eq in H; rewrite H; cbn; auto. }
  destruct (N.eqb_spec (nd_type nd) 3) as [E3|N3].
  { destruct (Z.ltb_spec (Z.of_nat (length tail) - 1) (Z.of_N (nd_size nd))) as [L|L].
    - split; [reflexivity|]. exists pre, nd, rest. split; [rewrite E, Et; reflexivity|]. split; [exact E3|].
      subst tail. cbn [length] in L. lia.
    - eapply good_bind; [apply good_rings|]. intros _ _.
      exists (nd :: firstn (N.to_nat (nd_size nd)) rest), (skipn (N.to_nat (nd_size nd)) rest).
      subst tail. cbn [length] in L |- *. split; [cbn [app]; rewrite firstn_skipn; reflexivity|]. split.
      + apply tree_polygon; [exact E3|]. rewrite firstn_length_le by lia. lia.
      + rewrite skipn_length. lia. }
  destruct ((nd_type nd =? 4)%N || (nd_type nd =? 5)%N || (nd_type nd =? 6)%N || (nd_type nd =? 7)%N)%bool eqn:E47.
  { eapply good_bind.
    - assert (nodes = (pre ++ [nd]) ++ rest) as E' by (rewrite <- app_assoc, E, Et; reflexivity).
      pose proof (good_parts m nodes f IH (length nodes) (nd_size nd) _ _ E') as H.
      replace (Z.of_nat (length pre) + 1) with (Z.of_nat (length (pre ++ [nd]))) by (rewrite app_length; cbn [length]; lia).
      replace (Z.of_nat (length tail) - 1) with (Z.of_nat (length rest)) by (subst tail; cbn [length]; lia). exact H.
    - intros [i n] (parts & post & E1 & Hl & HF & E2). cbn [snd] in E2. exists (nd :: concat parts), post.
      split; [subst tail; cbn [app]; rewrite <- E1; reflexivity|]. split; [|exact E2].
      apply tree_collection; [|congruence|exact HF]. repeat (apply orb_true_iff in E47; destruct E47 as [E47|H47]);
        try (apply N.eqb_eq in E47; rewrite E47; cbn; auto); try (apply N.eqb_eq in H47; rewrite H47; cbn; auto). }
  split; [reflexivity|]. exists nd. split; [rewrite E, Et; apply in_or_app; right; left; reflexivity|]. split; [|reflexivity].
  repeat (apply orb_false_iff in E47; destruct E47 as [E47 ?]). apply orb_false_iff in E12. destruct E12.
  repeat match goal with H : (_ =? _)%N = false |- _ => apply N.eqb_neq in H end. lia.
Qed.

(** ** Complete lists *)
Definition only {A} (a : A) (p : passage A) : Prop := match p with Passed b => b = a | Refused _ _ => False | _ => True end.
Lemma only_bind {A B} (a : A) (b : B) p k : only a p -> only b (k a) -> only b (pass_on p k).
Proof. destruct p; cbn; auto. intros ->. auto. Qed.
Lemma only_sequence m nd : only tt (e_sequence m nd).
Proof. pose proof (e_sequence_ok m nd) as H. destruct (e_sequence m nd) as [[]|c t| |]; cbn; auto. eapply H. reflexivity. Qed.
Lemma only_ring nodes m i : only (i + 1) (e_ring m nodes i).
Proof.
  unfold e_ring, e_get. destruct (get_cases nodes i) as [(nd & ->)| ->]; [|exact I]. cbn [pass_on].
  eapply only_bind; [apply only_sequence|reflexivity].
Qed.
Lemma only_rings nodes m : forall fu n i, only (i + Z.of_N n) (e_loop fu n (e_ring m nodes) i).
Proof.
  induction fu as [|fu IH]; intros n i; cbn [e_loop]; destruct (N.eqb_spec n 0); try exact I; try (subst n; cbn; lia).
  eapply only_bind; [apply only_ring|]. specialize (IH (n - 1)%N (i + 1)). replace (i + Z.of_N n) with (i + 1 + Z.of_N (n - 1)) by lia. exact IH.
Qed.

Definition tree_only m nodes f front : Prop := forall pre post n, nodes = pre ++ front ++ post -> Z.of_nat (length front) <= n ->
  only (n - Z.of_nat (length front)) (e_node m nodes f (Z.of_nat (length pre)) n).

Lemma parts_only m nodes f : forall parts, Forall (tree_only m nodes f) parts -> forall fu pre post n,
  nodes = pre ++ concat parts ++ post -> Z.of_nat (length (concat parts)) <= n ->
  only (Z.of_nat (length pre) + Z.of_nat (length (concat parts)), n - Z.of_nat (length (concat parts)))
    (e_loop fu (N.of_nat (length parts)) (fun st : Z * Z => let (child, n) := st in
       pass_on (e_node m nodes f child n) (fun n' => Passed (child + (n - n'), n'))) (Z.of_nat (length pre), n)).
Proof.
  induction parts as [|p ps IH]; intros HF fu pre post n E Hn.
  - assert (forall St (body : St -> passage St) s, e_loop fu 0 body s = Passed s) as H by (intros; destruct fu; reflexivity).
    change (N.of_nat (length [])) with 0%N. rewrite H. cbn. f_equal; lia.
  - inversion HF as [|? ? Hp Hps]; subst. destruct fu as [|fu]; cbn [e_loop]; (destruct (N.eqb_spec (N.of_nat (length (p :: ps))) 0) as [Hz|_];
      [cbn in Hz; lia|]); [exact I|].
    cbn [concat] in *. rewrite app_length in *.
    eapply only_bind.
    + eapply only_bind; [apply (Hp pre (concat ps ++ post) n); [rewrite !app_assoc; reflexivity|lia]|]. reflexivity.
    + replace (N.of_nat (length (p :: ps)) - 1)%N with (N.of_nat (length ps)) by (cbn [length]; lia).
      specialize (IH Hps fu (pre ++ p) post (n - Z.of_nat (length p)) ltac:(rewrite !app_assoc; reflexivity) ltac:(lia)).
      rewrite !app_length in IH.
      replace (Z.of_nat (length pre) + (n - (n - Z.of_nat (length p)))) with (Z.of_nat (length pre + length p)) by lia.
      match goal with H : only ?a ?p |- only ?b ?q => replace b with a by (f_equal; lia); exact H end.
Qed.

Lemma all_only m nodes f : forall k front, (length front <= k)%nat -> tree front -> tree_only m nodes f front.
Proof.
  induction f as [|f IHf]; intros k; [intros front _ _ pre post n _ _; exact I|].
  assert (forall front, tree front -> tree_only m nodes f front) as IH by (intros front; apply (IHf (length front)); lia).
  intros front _ Ht pre post n E Hn.
  assert (forall nd rest, front = nd :: rest -> e_get nodes (Z.of_nat (length pre)) = Passed nd) as Hget.
  { intros nd rest Ef. unfold e_get, get_node. destruct (Z.ltb_spec (Z.of_nat (length pre)) 0); [lia|]. rewrite Nat2Z.id, E, Ef.
    rewrite nth_error_app2, Nat.sub_diag by lia. reflexivity. }
  inversion Ht as [nd Hty|nd rings Hty Hs|nd parts Hty Hs HF]; subst front; cbn [e_node]; rewrite (Hget _ _ eq_refl); cbn [pass_on].
  - assert ((nd_type nd =? 1)%N || (nd_type nd =? 2)%N = true)%bool as -> by (destruct Hty as [<-|[<-|[]]]; reflexivity).
    eapply only_bind; [apply only_sequence|]. cbn. lia.
  - rewrite Hty. change ((3 =? 1)%N || (3 =? 2)%N)%bool with false. change (3 =? 3)%N with true. cbv iota.
    cbn [length] in Hn |- *. destruct (Z.ltb_spec (n - 1) (Z.of_N (nd_size nd))); [lia|].
    eapply only_bind; [apply only_rings|]. cbn. lia.
  - assert ((nd_type nd =? 1)%N || (nd_type nd =? 2)%N = false)%bool as -> by (destruct Hty as [<-|[<-|[<-|[<-|[]]]]]; reflexivity).
    assert ((nd_type nd =? 3)%N = false) as -> by (destruct Hty as [<-|[<-|[<-|[<-|[]]]]]; reflexivity).
    assert ((nd_type nd =? 4)%N || (nd_type nd =? 5)%N || (nd_type nd =? 6)%N || (nd_type nd =? 7)%N = true)%bool as ->
      by (destruct Hty as [<-|[<-|[<-|[<-|[]]]]]; reflexivity).
    cbn [length] in Hn |- *. rewrite Hs.
    eapply only_bind.
    + replace (Z.of_nat (length pre) + 1) with (Z.of_nat (length (pre ++ [nd]))) by (rewrite app_length; cbn [length]; lia).
      apply (parts_only m nodes f parts) with (post := post); [|rewrite <- app_assoc; exact E|lia].
      eapply Forall_impl; [|exact HF]. intros a Ha. apply IH. exact Ha.
    + cbn. lia.
Qed.

Lemma visit_only m nodes front extra : nodes = front ++ extra -> tree front ->
  only (Z.of_nat (length extra)) (e_node m nodes (S (length nodes)) 0 (Z.of_nat (length nodes))).
Proof.
  intros E Ht. pose proof (all_only m nodes (S (length nodes)) _ front (le_n _) Ht [] extra (Z.of_nat (length nodes)) E) as H.
  rewrite E, app_length in H at 1. specialize (H ltac:(lia)).
  replace (Z.of_nat (length nodes) - Z.of_nat (length front)) with (Z.of_nat (length extra)) in H by (rewrite E, app_length; lia).
  exact H.
Qed.

(** ** The visit *)
Lemma text_string t : (length t < 1023)%nat -> exists r, snd (error_set t) = t ++ [0%N] ++ r.
Proof.
  intros H. unfold error_set. cbn [snd]. rewrite firstn_all2 by lia.
  destruct (1024 - length t)%nat as [|n] eqn:E; [lia|]. exists (repeat 0%N n). reflexivity.
Qed.
Definition many_text : bytes := $"Too many nodes provided to GeoArrowGeometryVisit() for root geometry".
Lemma many_short : (length many_text < 1023)%nat. Proof. apply Nat.ltb_lt. vm_compute. reflexivity. Qed.
Lemma type_short n : (n < 256)%N -> (length ($"Invalid geometry_type: " ++ print_ld n) < 1023)%nat.
Proof.
  intros H. rewrite app_length. change (length $"Invalid geometry_type: ") with 23%nat.
  pose proof (proj2 (print_ld_ok n)) as P. assert (N.log2 n <= N.log2 255)%N by (apply N.log2_le_mono; lia).
  change (N.log2 255) with 7%N in *. lia.
Qed.

Lemma visit_says m nodes before : Forall (fun nd => (nd_type nd < 256)%N) nodes -> snd (trace (view_visit m nodes)) <> UB ->
  (snd (trace (view_visit m nodes)) = Ok tt /\ visit_told m nodes before = Ok (0, before) /\ tree nodes) \/
  (snd (trace (view_visit m nodes)) = Err EINVAL /\
   ((exists text r, visit_told m nodes before = Ok (EINVAL, text ++ [0%N] ++ r) /\ nodes_complaint nodes text) \/
    (visit_told m nodes before = Ok (EINVAL, before) /\ ends_in_rings nodes))).
Proof.
  intros Hb. pose proof (view_visit_terminates m nodes) as Hnf. revert Hnf. rewrite erased_visit. unfold visit_told, e_visit.
  pose proof (good_node m nodes (S (length nodes)) [] nodes eq_refl) as H. change (Z.of_nat (length [])) with 0 in H. revert H.
  destruct (e_node m nodes (S (length nodes)) 0 (Z.of_nat (length nodes))) as [n|c [t|]| |]; cbn [good pass_on erased]; intros H Hnf Hub;
    try congruence.
  - destruct H as (front & post & E & Ht & ->). destruct (Z.eqb_spec (Z.of_nat (length post)) 0) as [Hz|Hz]; cbn [negb erased].
    + left. split; [reflexivity|]. split; [reflexivity|]. destruct post; [|discriminate]. rewrite app_nil_r in E. subst. exact Ht.
    + right. split; [reflexivity|]. left. destruct (text_string many_text many_short) as (r & Er). exists many_text, r.
      unfold many_text in *. rewrite Er. split; [reflexivity|]. apply (too_many_nodes _ front post); auto. intros ->. apply Hz. reflexivity.
  - destruct H as (-> & nd & Hin & Hty & ->). right. split; [reflexivity|]. left.
    rewrite Forall_forall in Hb. destruct (text_string _ (type_short _ (Hb _ Hin))) as (r & Er). eexists. exists r. rewrite Er.
    split; [reflexivity|]. apply (invalid_type _ nd); auto. apply print_ld_ok.
  - destruct H as (-> & H). right. split; [reflexivity|]. right. auto.
Qed.

Lemma visit_tree m nodes before : tree nodes -> snd (trace (view_visit m nodes)) <> UB ->
  snd (trace (view_visit m nodes)) = Ok tt /\ visit_told m nodes before = Ok (0, before).
Proof.
  intros Ht. pose proof (view_visit_terminates m nodes) as Hnf. revert Hnf. rewrite erased_visit. unfold visit_told, e_visit.
  pose proof (visit_only m nodes nodes [] ltac:(rewrite app_nil_r; reflexivity) Ht) as H. revert H.
  destruct (e_node _ _ _ _ _); cbn [only pass_on erased]; try congruence; [|tauto]. intros -> _ _. split; reflexivity.
Qed.

Lemma visit_extra m front extra before : tree front -> extra <> [] -> snd (trace (view_visit m (front ++ extra))) <> UB ->
  exists r, visit_told m (front ++ extra) before =
    Ok (EINVAL, $"Too many nodes provided to GeoArrowGeometryVisit() for root geometry" ++ [0%N] ++ r).
Proof.
  intros Ht Hx. pose proof (view_visit_terminates m (front ++ extra)) as Hnf. revert Hnf. rewrite erased_visit. unfold visit_told, e_visit.
  pose proof (visit_only m _ front extra eq_refl Ht) as H. revert H.
  destruct (e_node _ _ _ _ _); cbn [only pass_on erased]; try congruence; [|tauto]. intros -> _ _.
  destruct (Z.eqb_spec (Z.of_nat (length extra)) 0) as [Hz|Hz]; [destruct extra; [contradiction|discriminate]|]. cbn [negb].
  destruct (text_string many_text many_short) as (r & Er). exists r. unfold many_text in Er. rewrite Er. reflexivity.
Qed.

(** ** Building *)
Lemma how_many_app p a b : how_many p (a ++ b) = (how_many p a + how_many p b)%nat.
Proof. unfold how_many. rewrite filter_app, app_length. reflexivity. Qed.

Record follows (past : list event) (s : gstate) : Prop := {
  f_level : g_level s = Z.of_nat (how_many begins past) - Z.of_nat (how_many ends past);
  f_range : 0 <= g_level s <= 31;
  f_nodes : g_nodes s = [] -> how_many begins past = 0%nat;
  f_none : ~ In ENullFeat past -> how_many begins past = 0%nat -> g_nodes s = []
}.

Lemma rebase_nil old new l : rebase_nodes old new l = Ok [] -> l = [].
Proof.
  destruct l as [|nd r]; [reflexivity|]. cbn [rebase_nodes].
  repeat match goal with |- context [obind ?x _] => destruct x; cbn [obind]; try discriminate end.
Qed.
Lemma reserve_keeps s n s' : reserve_coords s n = Ok s' -> g_level s' = g_level s /\ (g_nodes s' = [] -> g_nodes s = []).
Proof.
  unfold reserve_coords. destruct (_ <? _).
  - destruct (rebase_nodes (g_blk s) (S (g_blk s)) (g_nodes s)) eqn:E; cbn [obind]; try discriminate. intros H. injection H as <-. cbn.
    split; [reflexivity|]. intros ->. exact (rebase_nil _ _ _ E).
  - intros H. injection H as <-. auto.
Qed.
Lemma roll_nil l e z : forall x y, roll l e z = Ok ([], x, y) -> l = [].
Proof.
  destruct l as [|nd r]; [reflexivity|]. cbn [roll]. intros x y.
  destruct (roll r e z) as [[[? ?] ?]|? | |]; cbn [obind]; try discriminate.
  destruct (roll_node _ _ _) as [[[? ?] ?]|? | |]; cbn [obind]; discriminate.
Qed.

(** Sets a message and fails, or does neither. *)
Lemma geom_start_cases s ty dims : g_geom_start s ty dims = VUB \/
  (g_level s = 31 /\ e_geom_start s <> None /\ exists s', g_geom_start s ty dims = VRet s' EINVAL) \/
  (g_level s <> 31 /\ e_geom_start s = None /\ exists s', g_geom_start s ty dims = VRet s' 0 /\ g_level s' = g_level s + 1 /\ g_nodes s' <> []).
Proof.
  unfold g_geom_start, e_geom_start.
  match goal with |- context [match ?p with Ok _ => _ | _ => _ end] => assert (forall s', p = Ok s' -> g_level s' = g_level s /\ g_nodes s' <> []) as H;
    [|destruct p as [s'| | |]; auto] end.
  { intros s'. destruct (is_sequence ty).
    - destruct (num_dimensions _); cbn [or_ub obind]; [|discriminate]. destruct (reserve_coords s z) eqn:E; cbn [obind]; try discriminate.
      intros X. injection X as <-. unfold add_node. cbn. split; [exact (proj1 (reserve_keeps _ _ _ E))|]. destruct (g_nodes a); discriminate.
    - intros X. injection X as <-. unfold add_node. cbn. split; [reflexivity|]. destruct (g_nodes s); discriminate. }
  destruct (H s' eq_refl) as [Hl Hn]. right. unfold MAX_NESTING. destruct (Z.eqb_spec (g_level s) 31); [left|right].
  - split; [assumption|]. split; [discriminate|]. eexists. reflexivity.
  - split; [assumption|]. split; [reflexivity|]. eexists. split; [reflexivity|]. cbn. split; [lia|exact Hn].
Qed.

Lemma step_cases past s e : follows past s -> e <> EFeatStart ->
  geom_step s e = VUB \/
  (exists s' text, e_step s e = Some text /\ geom_step s e = VRet s' EINVAL /\ call_complaint past e text /\ (length text < 1023)%nat) \/
  (exists s', e_step s e = None /\ geom_step s e = VRet s' 0 /\ follows (past ++ [e]) s').
Proof.
  intros [Fl Fr Fn F0] He.
  assert (forall e, how_many begins (past ++ [e]) = (how_many begins past + if begins e then 1 else 0)%nat /\
            how_many ends (past ++ [e]) = (how_many ends past + if ends e then 1 else 0)%nat) as Hc.
  { intros x. rewrite !how_many_app. unfold how_many. cbn [filter]. split; [destruct (begins x)|destruct (ends x)]; reflexivity. }
  destruct (Hc e) as [Hb Hd].
  assert (forall x, ~ In ENullFeat (past ++ [x]) -> ~ In ENullFeat past) as Hin by (intros x H H1; apply H, in_or_app; auto).
  destruct e as [| |ty dims| |n cs| | |]; cbn [geom_step e_step begins ends] in *; try contradiction.
  - right. right. eexists. split; [reflexivity|]. split; [reflexivity|]. unfold add_node. split; cbn; rewrite ?Hb, ?Hd; [lia|lia| |].
    + intros H. destruct (g_nodes s); discriminate.
    + intros H. exfalso. apply H, in_or_app. right. left. reflexivity.
  - destruct (geom_start_cases s ty dims) as [H|[(El & Et & s' & H)|(El & Et & s' & H & Hl & Hn)]]; [left; exact H| |].
    + right. left. exists s'. unfold e_geom_start in *. destruct (g_level s =? MAX_NESTING); [|contradiction]. eexists. split; [reflexivity|].
      split; [exact H|]. split; [|apply Nat.ltb_lt; vm_compute; reflexivity]. apply too_deep; [reflexivity|lia].
    + right. right. exists s'. split; [exact Et|]. split; [exact H|]. split; rewrite ?Hb, ?Hd; [lia|lia|contradiction|lia].
  - unfold g_ring_start, e_ring_start. destruct (g_nodes s) as [|nd l] eqn:En.
    + right. left. cbn [rev]. do 2 eexists. split; [reflexivity|]. split; [reflexivity|]. split; [|apply Nat.ltb_lt; vm_compute; reflexivity].
      apply ring_first. auto.
    + destruct (rev (nd :: l)) as [|last r] eqn:Er; [apply (f_equal (@length _)) in Er; rewrite rev_length in Er; discriminate|].
      destruct (geom_start_cases s 2 (nd_dims last)) as [H|[(El & Et & s' & H)|(El & Et & s' & H & Hl & Hn)]]; [left; exact H| |].
      * right. left. exists s'. unfold e_geom_start in *. destruct (g_level s =? MAX_NESTING); [|contradiction]. eexists. split; [reflexivity|].
        split; [exact H|]. split; [|apply Nat.ltb_lt; vm_compute; reflexivity]. apply too_deep; [reflexivity|lia].
      * right. right. exists s'. split; [exact Et|]. split; [exact H|]. split; rewrite ?Hb, ?Hd; [lia|lia|contradiction|lia].
  - unfold g_coords_event, e_coords. destruct (g_nodes s) as [|nd l] eqn:En.
    + right. left. do 2 eexists. split; [reflexivity|]. split; [reflexivity|]. split; [|apply Nat.ltb_lt; vm_compute; reflexivity].
      apply coords_first. auto.
    + destruct (reserve_coords s _) as [s'| | |] eqn:E; auto. right. right. eexists. split; [reflexivity|]. split; [reflexivity|].
      destruct (reserve_keeps _ _ _ E) as [Kl Kn]. rewrite En in Kn. split; cbn; rewrite ?Kl, ?Hb, ?Hd; [lia|lia| |].
      * intros X. discriminate (Kn X).
      * intros H1 H2. assert (how_many begins past = 0%nat) as Hz by lia. discriminate (F0 (Hin _ H1) Hz).
  - unfold g_end, e_end. destruct (Z.eqb_spec (g_level s) 0).
    + right. left. do 2 eexists. split; [reflexivity|]. split; [reflexivity|]. split; [|apply Nat.ltb_lt; vm_compute; reflexivity].
      apply too_many_ends; [reflexivity|lia].
    + right. right. eexists. split; [reflexivity|]. split; [reflexivity|]. split; cbn; rewrite ?Hb, ?Hd; [lia|lia| |].
      * intros H. specialize (Fn H). lia.
      * intros H1 H2. apply F0; [exact (Hin _ H1)|lia].
  - unfold g_end, e_end. destruct (Z.eqb_spec (g_level s) 0).
    + right. left. do 2 eexists. split; [reflexivity|]. split; [reflexivity|]. split; [|apply Nat.ltb_lt; vm_compute; reflexivity].
      apply too_many_ends; [reflexivity|lia].
    + right. right. eexists. split; [reflexivity|]. split; [reflexivity|]. split; cbn; rewrite ?Hb, ?Hd; [lia|lia| |].
      * intros H. specialize (Fn H). lia.
      * intros H1 H2. apply F0; [exact (Hin _ H1)|lia].
  - unfold g_feat_end, e_feat_end. destruct (g_nodes s) as [|nd l] eqn:En.
    + right. left. do 2 eexists. split; [reflexivity|]. split; [reflexivity|]. split; [|apply Nat.ltb_lt; vm_compute; reflexivity].
      apply end_first. auto.
    + destruct (b_size (g_coords s) =? 0).
      * right. right. eexists. split; [reflexivity|]. split; [reflexivity|]. split; cbn; rewrite ?Hb, ?Hd, ?En; [lia|lia|discriminate|].
        intros H1 H2. assert (how_many begins past = 0%nat) as Hz by lia. discriminate (F0 (Hin _ H1) Hz).
      * destruct (roll (nd :: l) _ _) as [[[ns ?] ?]| | |] eqn:E; auto. right. right. eexists. split; [reflexivity|]. split; [reflexivity|].
        split; cbn; rewrite ?Hb, ?Hd; [lia|lia| |].
        -- intros ->. apply roll_nil in E. discriminate.
        -- intros H1 H2. assert (how_many begins past = 0%nat) as Hz by lia. discriminate (F0 (Hin _ H1) Hz).
Qed.

Lemma told_feed : forall evs before s, option_map fst (build_told before s evs) = option_map snd (feed geom_step s evs).
Proof.
  induction evs as [|e r IH]; intros before s; [reflexivity|]. cbn [build_told feed]. destruct (geom_step s e) as [s' c|]; [|reflexivity].
  destruct (c =? 0); [apply IH|reflexivity].
Qed.

Lemma build_cases : forall evs past before s, follows past s -> ~ In EFeatStart evs ->
  build_told before s evs = None \/
  (exists s', build_told before s evs = Some (0, before) /\ feed geom_step s evs = Some (s', 0) /\ follows (past ++ evs) s') \/
  (exists first e rest text r, evs = first ++ e :: rest /\ build_told before s evs = Some (EINVAL, text ++ [0%N] ++ r) /\
     (exists s', feed geom_step s first = Some (s', 0)) /\ call_complaint (past ++ first) e text).
Proof.
  induction evs as [|e evs IH]; intros past before s F Hn.
  { right. left. exists s. rewrite app_nil_r. repeat split; auto; apply F. }
  cbn [build_told feed]. destruct (step_cases past s e F ltac:(intros ->; apply Hn; left; reflexivity)) as
    [H|[(s' & text & Et & H & Hc & Hl)|(s' & Et & H & F')]]; rewrite H; [left; reflexivity| |].
  - right. right. change (EINVAL =? 0) with false. cbv iota. rewrite Et. destruct (text_string text Hl) as (r & Er). rewrite Er.
    exists [], e, evs, text, r. split; [reflexivity|]. split; [reflexivity|]. split; [exists s; reflexivity|]. rewrite app_nil_r. exact Hc.
  - change (0 =? 0) with true. cbv iota. rewrite Et.
    destruct (IH (past ++ [e]) before s' F' ltac:(intros X; apply Hn; right; exact X)) as
      [H1|[(s2 & H1 & H2 & H3)|(first & e2 & rest & text & r & H1 & H2 & (s2 & H3) & H4)]]; [left; exact H1| |].
    + right. left. exists s2. rewrite <- app_assoc in H3. auto.
    + right. right. exists (e :: first), e2, rest, text, r. split; [rewrite H1; reflexivity|]. split; [exact H2|].
      rewrite <- app_assoc in H4. split; [|exact H4]. exists s2. cbn [feed]. rewrite H. exact H3.
Qed.

Lemma started s : exists s', geom_step s EFeatStart = VRet s' 0 /\ follows [] s'.
Proof. eexists. split; [reflexivity|]. split; cbn; auto; lia. Qed.

Lemma build_says s before evs : ~ In EFeatStart evs ->
  match build_told before s (EFeatStart :: evs) with
  | None => feed geom_step s (EFeatStart :: evs) = None
  | Some (code, message) =>
      (exists s', feed geom_step s (EFeatStart :: evs) = Some (s', code)) /\
      ((code = 0 /\ message = before) \/
       (code = EINVAL /\ exists past e rest text r, evs = past ++ e :: rest /\ message = text ++ [0%N] ++ r /\
          (exists s', feed geom_step s (EFeatStart :: past) = Some (s', 0)) /\ call_complaint past e text))
  end.
Proof.
  intros Hn. pose proof (told_feed (EFeatStart :: evs) before s) as Hf. revert Hf. destruct (started s) as (s0 & H0 & F0).
  cbn [build_told e_step]. assert (forall l, feed geom_step s (EFeatStart :: l) = feed geom_step s0 l) as Hs.
  { intros l. cbn [feed]. rewrite H0. reflexivity. }
  rewrite Hs, H0. change (0 =? 0) with true. cbv iota.
  destruct (build_cases evs [] before s0 F0 Hn) as [H1|[(s2 & H1 & H2 & _)|(first & e2 & rest & text & r & H1 & H2 & (s2 & H3) & H4)]].
  - rewrite H1. cbn. destruct (feed geom_step s0 evs); [discriminate|reflexivity].
  - rewrite H1, H2. intros _. split; [exists s2; reflexivity|]. left. auto.
  - rewrite H2. cbn [option_map fst]. destruct (feed geom_step s0 evs) as [[s3 c]|]; [|discriminate]. cbn [option_map snd]. intros X. injection X as <-.
    split; [exists s3; reflexivity|]. right. split; [reflexivity|]. exists first, e2, rest, text, r. split; [exact H1|]. split; [reflexivity|].
    rewrite Hs. split; [exists s2; exact H3|exact H4].
Qed.

Lemma complaint_text past e t1 : call_complaint past e t1 -> forall t2, call_complaint past e t2 -> t1 = t2.
Proof.
  intros [] t2 H2; inversion H2; subst; auto; cbn [begins ends] in *; try discriminate; try lia;
    match goal with H : _ = true, H' : _ = true |- _ => destruct e; discriminate | _ => idtac end.
Qed.

Lemma complained past s e text : follows past s -> ~ In ENullFeat past -> call_complaint past e text -> e_step s e <> None.
Proof.
  intros [Fl Fr Fn F0] Hn H. inversion H; subst; cbn [e_step].
  - unfold e_ring_start. rewrite F0 by assumption. discriminate.
  - unfold e_coords. rewrite F0 by assumption. discriminate.
  - unfold e_feat_end. rewrite F0 by assumption. discriminate.
  - assert (g_level s = 0) as Hl by lia. destruct e; try discriminate; cbn [e_step]; unfold e_end; rewrite Hl; discriminate.
  - assert (g_level s = 31) as Hl by lia. destruct e; try discriminate; cbn [e_step]; unfold e_ring_start, e_geom_start; rewrite Hl;
      [discriminate|]. destruct (g_nodes s); discriminate.
Qed.

Lemma feed_app {S} (v : visitor S) : forall a b s s', feed v s a = Some (s', 0) -> feed v s (a ++ b) = feed v s' b.
Proof.
  induction a as [|e a IH]; intros b s s' H; [injection H as <-; reflexivity|]. cbn [feed app] in *. destruct (v s e); [|discriminate].
  destruct (Z.eqb_spec code 0); [apply IH; exact H|]. injection H as _ ->. contradiction.
Qed.

Lemma build_refuses s before past e text : ~ In EFeatStart past -> ~ In ENullFeat past -> call_complaint past e text ->
  feed geom_step s (EFeatStart :: past ++ [e]) <> None ->
  (exists s', feed geom_step s (EFeatStart :: past) = Some (s', 0)) ->
  exists r, build_told before s (EFeatStart :: past ++ [e]) = Some (EINVAL, text ++ [0%N] ++ r).
Proof.
  intros Hf Hn Hc Hub (s1 & H1).
  assert (e <> EFeatStart) as He.
  { inversion Hc; subst; try discriminate; intros ->; discriminate. }
  pose proof (build_says s before (past ++ [e]) ltac:(intros X; apply in_app_or in X; destruct X as [X|[X|[]]]; [contradiction|congruence])) as H.
  destruct (started s) as (s0 & H0 & F0).
  assert (feed geom_step s0 past = Some (s1, 0)) as H1'.
  { cbn [feed] in H1. rewrite H0 in H1. exact H1. }
  assert (follows past s1) as F1.
  { destruct (build_cases past [] before s0 F0 Hf) as [X|[(s2 & _ & X & F)|(first & e2 & rest & t & r & X & X2 & _)]].
    - pose proof (told_feed past before s0) as T. rewrite X, H1' in T. discriminate.
    - rewrite H1' in X. injection X as <-. exact F.
    - pose proof (told_feed past before s0) as T. rewrite X2, H1' in T. discriminate. }
  assert (feed geom_step s (EFeatStart :: past ++ [e]) = feed geom_step s1 [e]) as Hfe.
  { change (EFeatStart :: past ++ [e]) with ((EFeatStart :: past) ++ [e]). apply feed_app. exact H1. }
  destruct (step_cases past s1 e F1 He) as [X|[(s' & t & Et & X & Hc' & Hl)|(s' & Et & X & _)]].
  - exfalso. apply Hub. rewrite Hfe. cbn [feed]. rewrite X. reflexivity.
  - rewrite (complaint_text _ _ _ Hc _ Hc'). destruct (text_string t Hl) as (r & Er). exists r.
    assert (forall l b s a, feed geom_step s l = Some (a, 0) -> (exists q, follows q s) -> ~ In EFeatStart l ->
              build_told b s (l ++ [e]) = build_told b a [e]) as Happ.
    { clear. induction l as [|x l IH]; intros b s a H (q & F) Hn; [injection H as <-; reflexivity|]. cbn [app build_told feed] in *.
      destruct (step_cases q s x F ltac:(intros ->; apply Hn; left; reflexivity)) as [X|[(s' & t & Et & X & _)|(s' & Et & X & F')]];
        rewrite X in *; [discriminate|discriminate|]. rewrite Et. change (0 =? 0) with true in *. cbv iota in *.
      apply IH; [exact H|eexists; exact F'|]. intros Y. apply Hn. right. exact Y. }
    cbn [build_told e_step]. rewrite H0. change (0 =? 0) with true. cbv iota.
    rewrite (Happ past before s0 s1 H1' (ex_intro _ [] F0) Hf). cbn [build_told]. rewrite Et, X, Er. reflexivity.
  - exfalso. exact (complained _ _ _ _ F1 Hn Hc Et).
Qed.

(** ** A polygon without its ring *)
Lemma rings_silent : exists nodes, forall m before,
  snd (trace (view_visit m nodes)) = Err EINVAL /\ visit_told m nodes before = Ok (EINVAL, before).
Proof.
  exists [{| nd_coords := qconst nan_ptr; nd_stride := qconst 0; nd_size := 1; nd_type := 3; nd_dims := 1; nd_swap := false; nd_level := 0 |}].
  intros m before. split; reflexivity.
Qed.
