(** * What a caller of a visitor must and a visitor's caller may do *)
From Verif Require Import Base GeomSpec VisitorModel.
Local Open Scope Z_scope.

(** ** Feeding a list of events to a visitor until the first error *)
Fixpoint feed {S} (v : visitor S) (s : S) (evs : list event) : option (S * Z) :=
  match evs with
  | [] => Some (s, 0)
  | e :: r =>
      match v s e with
      | VRet s' c => if c =? 0 then feed v s' r else Some (s', c)
      | VUB => None
      end
  end.

(** ** Proper nesting *)
Inductive frame := FFeat | FGeom | FRing.

(** The open brackets after an event; [None] when the event is not allowed there. *)
Definition nest (st : list frame) (e : event) : option (list frame) :=
  match e, st with
  | EFeatStart, [] => Some [FFeat]
  | ENullFeat, [FFeat] => Some [FFeat]
  | EGeomStart _ _, (FFeat | FGeom) :: _ => Some (FGeom :: st)
  | ERingStart, FGeom :: _ => Some (FRing :: st)
  | ECoords _ _, (FGeom | FRing) :: _ => Some st
  | ERingEnd, FRing :: st' => Some st'
  | EGeomEnd, FGeom :: st' => Some st'
  | EFeatEnd, FFeat :: st' => Some st'
  | _, _ => None
  end.

Fixpoint nest_all (st : list frame) (evs : list event) : option (list frame) :=
  match evs with
  | [] => Some st
  | e :: r => match nest st e with Some st' => nest_all st' r | None => None end
  end.

(** A properly nested sequence opens and closes everything. *)
Definition well_nested (evs : list event) : Prop := nest_all [] evs = Some [].
Definition nested_prefix (evs : list event) : Prop := exists rest, well_nested (evs ++ rest).

(** ** Error propagation *)

(** A visitor that records the events it sees and returns the [n]-th code of [codes] for the [n]-th of them. *)
Definition scripted (codes : nat -> Z) : visitor (list event) :=
  fun seen e => VRet (seen ++ [e]) (codes (length seen)).
