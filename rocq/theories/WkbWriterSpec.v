(** * Histories of a WKB writer *)
From Verif Require Import Base GeomSpec WkbSpec NodesModel NodesSpec VisitorModel VisitorSpec BufferModel ArraySpec WkbWriterModel.
Local Open Scope Z_scope.

(** The operations a user performs between Init (or Finish) and Finish. *)
Inductive wkb_op :=
| OpVisit (evs : list event)                  (* calls to the visitor *)
| OpAppend (m : mem) (nodes : list node)      (* GeoArrowWKBWriterAppend *)
| OpAppendNull.                               (* GeoArrowWKBWriterAppendNull *)

Definition run_op (s : wst) (op : wkb_op) : option (wst * Z) :=
  match op with
  | OpVisit evs => feed wkb_step s evs
  | OpAppend m nodes => match wkb_append m nodes s with VRet s c => Some (s, c) | VUB => None end
  | OpAppendNull => match wkb_append_null s with VRet s c => Some (s, c) | VUB => None end
  end.

(** Every coordinate sequence has fewer than 2^32 ordinates. *)
Definition seq_small (d : dim) (cs : list coord) : Prop := (N.of_nat (ndim d * length cs) < 2 ^ 32)%N.
Inductive small_geom : geom -> Prop :=
| sg_point d cs : seq_small d cs -> small_geom (GPoint d cs)
| sg_line d cs : seq_small d cs -> small_geom (GLine d cs)
| sg_poly d rings : Forall (seq_small d) rings -> small_geom (GPoly d rings)
| sg_coll k d parts : Forall small_geom parts -> small_geom (GColl k d parts).

(** [writes op f]: the operation delivers the feature [f]. *)
Inductive writes : wkb_op -> option geom -> Prop :=
| wr_visit f evs : feature_events f evs -> (forall g, f = Some g -> wf_geom g) -> writes (OpVisit evs) f
| wr_append m lvl nodes g : repr_geom m lvl nodes g -> wf_geom g -> small_geom g -> writes (OpAppend m nodes) (Some g)
| wr_null : writes OpAppendNull None.

(** Performing operations while they succeed. *)
Fixpoint run_ops (s : wst) (ops : list wkb_op) : option (wst * Z) :=
  match ops with
  | [] => Some (s, 0)
  | op :: r =>
      match run_op s op with
      | Some (s', c) => if c =? 0 then run_ops s' r else Some (s', c)
      | None => None
      end
  end.

(** A writer that holds nothing: after Init, and after Finish. *)
Record clean (s : wst) : Prop := {
  c_validity : w_validity s = None;
  c_offsets : w_offsets s = [];
  c_values : w_values s = buf_init;
  c_length : w_length s = 0;
  c_nulls : w_nulls s = 0
}.

(** The bytes of a feature: WKB, or nothing for a null. *)
Definition feature_wkb (f : option geom) : option bytes := option_map iso_wkb f.
Definition total_size (fs : list (option geom)) : Z :=
  Z.of_nat (length (concat (map (fun f => match feature_wkb f with Some b => b | None => [] end) fs))).

(** Operations that obey the interface: visitor calls are properly nested as far as they go. *)
Definition obeys (op : wkb_op) : Prop := match op with OpVisit evs => nested_prefix evs | _ => True end.

(** Performing operations whether they succeed or fail. *)
Fixpoint run_all (s : wst) (ops : list wkb_op) : option wst :=
  match ops with
  | [] => Some s
  | op :: r => match run_op s op with Some (s', _) => run_all s' r | None => None end
  end.

