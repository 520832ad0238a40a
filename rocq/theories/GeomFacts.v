From Verif Require Import Base BaseFacts GeomSpec.

(** Induction over geometries with an induction hypothesis for every member of a collection. *)
Fixpoint geom_ind' (P : geom -> Prop)
  (Hpoint : forall d cs, P (GPoint d cs)) (Hline : forall d cs, P (GLine d cs))
  (Hpoly : forall d rings, P (GPoly d rings))
  (Hcoll : forall k d parts, Forall P parts -> P (GColl k d parts)) (g : geom) : P g :=
  match g with
  | GPoint d cs => Hpoint d cs
  | GLine d cs => Hline d cs
  | GPoly d rings => Hpoly d rings
  | GColl k d parts =>
      Hcoll k d parts
        ((fix go gs : Forall P gs :=
            match gs with
            | [] => Forall_nil P
            | g :: gs => Forall_cons g (geom_ind' P Hpoint Hline Hpoly Hcoll g) (go gs)
            end) parts)
  end.

Lemma depth_coll k d parts : depth (GColl k d parts) = S (depths parts).
Proof. reflexivity. Qed.

Lemma depth_pos g : (1 <= depth g)%nat.
Proof. destruct g; cbn [depth]; lia. Qed.

Lemma depths_cons g gs : depths (g :: gs) = Nat.max (depth g) (depths gs).
Proof. reflexivity. Qed.

Lemma nesting_coll k d parts : nesting (GColl k d parts) = S (nestings parts).
Proof. reflexivity. Qed.

Lemma nesting_pos g : (1 <= nesting g)%nat.
Proof. destruct g as [| |? []|]; cbn [nesting]; lia. Qed.

Lemma nestings_cons g gs : nestings (g :: gs) = Nat.max (nesting g) (nestings gs).
Proof. reflexivity. Qed.

Lemma geom_coords_coll k d parts : geom_coords (GColl k d parts) = flat_map geom_coords parts.
Proof. cbn [geom_coords]. induction parts as [|g gs IH]; cbn; [reflexivity|]. rewrite IH. reflexivity. Qed.

Lemma canon_events_coll k d parts :
  canon_events (GColl k d parts) = [EGeomStart (coll_code k) (dimN d)] ++ flat_map canon_events parts ++ [EGeomEnd].
Proof.
  reflexivity.
Qed.

Lemma wf_geoms_Forall gs : wf_geoms gs <-> Forall wf_geom gs.
Proof.
  split.
  - induction gs as [|g gs IH]; intros H; inversion H; subst; constructor; auto.
  - induction 1; constructor; auto.
Qed.

Lemma geom_coords_wf g : wf_geom g -> Forall (fun sc => wf_coord (fst sc) (snd sc)) (geom_coords g).
Proof.
  induction g as [d cs|d cs|d rings|k d parts IH] using geom_ind'; intros H; inversion H; subst; cbn [geom_coords].
  - rewrite Forall_map. assumption.
  - rewrite Forall_map. assumption.
  - rewrite Forall_map. apply Forall_concat. assumption.
  - change (Forall (fun sc => wf_coord (fst sc) (snd sc)) (geom_coords (GColl k d parts))). rewrite geom_coords_coll, Forall_flat_map.
    match goal with X : wf_geoms _ |- _ => apply wf_geoms_Forall in X; rename X into Hw end.
    rewrite Forall_forall in *. intros x Hx. apply (IH x Hx (Hw x Hx)).
Qed.

Lemma seq_events_single d cs : seq_events d cs [ECoords (N.of_nat (ndim d)) cs].
Proof. rewrite <- (app_nil_r cs) at 1. constructor. constructor. Qed.

Lemma seq_events_app d a b ea eb : seq_events d a ea -> seq_events d b eb -> seq_events d (a ++ b) (ea ++ eb).
Proof. induction 1 as [|c cs evs H IH]; intros Hb; cbn [app]; [exact Hb|]. rewrite <- app_assoc. constructor. auto. Qed.

Lemma canon_events_ok g : geom_events g (canon_events g).
Proof.
  induction g as [d cs|d cs|d rings|k d parts IH] using geom_ind'.
  - apply (ge_point d cs _ (seq_events_single d cs)).
  - apply (ge_line d cs _ (seq_events_single d cs)).
  - cbn [canon_events]. constructor. induction rings as [|r rings IH]; cbn [flat_map]; [constructor|].
    apply (re_ring d r rings [_] _ (seq_events_single d r) IH).
  - rewrite canon_events_coll. constructor. induction IH as [|g gs Hg Hgs IHgs]; cbn [flat_map]; [constructor|].
    constructor; assumption.
Qed.
