(** * The messages about geometries: src/geoarrow/geometry.c *)
From Verif Require Import Base Text TypesModel NodesModel GeomSpec VisitorModel BufferModel GeomVisitModel GeomBuildModel WktErrorModel.
Local Open Scope Z_scope.

(** ** Visiting *)

(** What a function does when every call of the visitor succeeds: it goes on ([Passed]), returns a code after it set the message or
    without a message ([Refused]), or reads memory that is not there ([Outside]). [Spent]: the model's fuel is exhausted. *)
Inductive passage (A : Type) := Passed (a : A) | Refused (code : Z) (text : option bytes) | Outside | Spent.
Arguments Passed {A}. Arguments Refused {A}. Arguments Outside {A}. Arguments Spent {A}.
Definition pass_on {A B} (m : passage A) (k : A -> passage B) : passage B :=
  match m with Passed a => k a | Refused code text => Refused code text | Outside => Outside | Spent => Spent end.

Fixpoint e_loop {St} (fuel : nat) (n : N) (body : St -> passage St) (s : St) : passage St :=
  if N.eqb n 0 then Passed s
  else
    match fuel with
    | O => Spent
    | S f => pass_on (body s) (e_loop f (n - 1) body)
    end.

Section Visit.
  Variable m : mem.
  Variable nodes : list node.

  (** geometry.c lines 412-448: GeoArrowGeometryVisitSequence, which sets no message *)
  Definition e_sequence (nd : node) : passage unit :=
    match snd (trace (visit_sequence m nd)) with
    | Ok a => Passed a | Err code => Refused code None | UB => Outside | NoFuel => Spent
    end.
  (** A node of the list. *)
  Definition e_get (i : Z) : passage node :=
    match get_node nodes i with Ok nd => Passed nd | _ => Outside end.
  (** geometry.c lines 467-471 *)
  Definition e_ring (i : Z) : passage Z :=
    pass_on (e_get i) (fun nd => pass_on (e_sequence nd) (fun _ => Passed (i + 1))).

  (** geometry.c lines 450-497: GeoArrowGeometryVisitNode. Line 465 returns without a message. Lines 453-455 set a message and go on
      to read the node at [i], which is then not in the list. *)
  Fixpoint e_node (fuel : nat) (i : Z) (n : Z) : passage Z :=
    match fuel with
    | O => Spent
    | S f =>
        let n := n - 1 in
        pass_on (e_get i) (fun nd =>
        if (N.eqb (nd_type nd) 1 || N.eqb (nd_type nd) 2)%bool then pass_on (e_sequence nd) (fun _ => Passed n)
        else if N.eqb (nd_type nd) 3 then
          if n <? Z.of_N (nd_size nd) then Refused EINVAL None
          else pass_on (e_loop (length nodes) (nd_size nd) e_ring (i + 1)) (fun _ => Passed (n - Z.of_N (nd_size nd)))
        else if (N.eqb (nd_type nd) 4 || N.eqb (nd_type nd) 5 || N.eqb (nd_type nd) 6 || N.eqb (nd_type nd) 7)%bool then
          pass_on (e_loop (length nodes) (nd_size nd)
            (fun st : Z * Z =>
               let (child, n) := st in
               pass_on (e_node f child n) (fun n' => Passed (child + (n - n'), n')))
            (i + 1, n)) (fun '(_, n) => Passed n)
        else Refused EINVAL (Some ($"Invalid geometry_type: " ++ print_ld (nd_type nd))))
    end.

  (** geometry.c lines 499-512 and 514-527: GeoArrowGeometryViewVisit and GeoArrowGeometryVisit *)
  Definition e_visit : passage unit :=
    pass_on (e_node (S (length nodes)) 0 (Z.of_nat (length nodes))) (fun n =>
    if negb (n =? 0) then Refused EINVAL (Some $"Too many nodes provided to GeoArrowGeometryVisit() for root geometry")
    else Passed tt).

  (** The code and the message after the call; [before] is the message before it. *)
  Definition visit_told (before : bytes) : outcome (Z * bytes) :=
    match e_visit with
    | Passed _ => Ok (0, before)
    | Refused code (Some text) => Ok (code, snd (error_set text))
    | Refused code None => Ok (code, before)
    | Outside => UB
    | Spent => NoFuel
    end.
End Visit.

(** ** Building: the texts that the functions of the visitor set; what else they do is in GeomBuildModel.v *)

(** geometry.c lines 267-270 *)
Definition e_geom_start (s : gstate) : option bytes :=
  if g_level s =? MAX_NESTING then Some $"Maximum recursion for GeoArrowGeometry visitor reached" else None.
(** geometry.c lines 276-286 *)
Definition e_ring_start (s : gstate) : option bytes :=
  match g_nodes s with
  | [] => Some $"Call to ring_start before geom_start in GeoArrowGeometry visitor"
  | _ :: _ => e_geom_start s
  end.
(** geometry.c lines 294-298 *)
Definition e_coords (s : gstate) : option bytes :=
  match g_nodes s with
  | [] => Some $"Call to coords before geom_start in GeoArrowGeometry visitor"
  | _ :: _ => None
  end.
(** geometry.c lines 319-323 and 334-338 *)
Definition e_end (s : gstate) : option bytes :=
  if g_level s =? 0 then Some $"Incorrect nesting in GeoArrowGeometry visitor (level < 0)" else None.
(** geometry.c lines 349-353 *)
Definition e_feat_end (s : gstate) : option bytes :=
  match g_nodes s with
  | [] => Some $"Call to feat_end before geom_start in GeoArrowGeometry visitor"
  | _ :: _ => None
  end.
Definition e_step (s : gstate) (e : event) : option bytes :=
  match e with
  | EFeatStart | ENullFeat => None
  | EGeomStart _ _ => e_geom_start s
  | ERingStart => e_ring_start s
  | ECoords _ _ => e_coords s
  | ERingEnd | EGeomEnd => e_end s
  | EFeatEnd => e_feat_end s
  end.

(** Calls up to the first that fails: the code and the message afterwards. [None]: a call performed an undefined access. *)
Fixpoint build_told (before : bytes) (s : gstate) (evs : list event) : option (Z * bytes) :=
  match evs with
  | [] => Some (0, before)
  | e :: r =>
      let message := match e_step s e with Some text => snd (error_set text) | None => before end in
      match geom_step s e with
      | VRet s' code => if code =? 0 then build_told message s' r else Some (code, message)
      | VUB => None
      end
  end.
