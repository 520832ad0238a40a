(** * Programs that call a visitor *)
From Verif Require Import Base GeomSpec.
Local Open Scope Z_scope.

(** A reader is a program that calls the methods of a visitor (struct GeoArrowVisitor, src/geoarrow/geoarrow_type.h lines
    814-862) and inspects the code each of them returns. [Call e k] calls the method of event [e] and goes on as [k code].
    [Ret o] finishes. *)
Inductive prog (A : Type) : Type :=
| Ret (o : outcome A)
| Call (e : event) (k : Z -> prog A).
Arguments Ret {A} _.
Arguments Call {A} _ _.

Fixpoint pbind {A B} (p : prog A) (f : A -> prog B) : prog B :=
  match p with
  | Ret (Ok a) => f a
  | Ret (Err c) => Ret (Err c)
  | Ret UB => Ret UB
  | Ret NoFuel => Ret NoFuel
  | Call e k => Call e (fun c => pbind (k c) f)
  end.

(** GEOARROW_RETURN_NOT_OK(v->method(v, ...)) *)
Definition emit (e : event) : prog unit :=
  Call e (fun c => if c =? 0 then Ret (Ok tt) else Ret (Err c)).

Notation "'let!' x := p 'in' k" := (pbind p (fun x => k))
  (at level 200, x pattern, p at level 100, k at level 200).
Notation "'run!' p 'in' k" := (pbind p (fun _ => k))
  (at level 200, p at level 100, k at level 200).

(** ** Visitors *)

(** One call of a visitor method: the new state and the code returned, or an access without defined meaning. *)
Inductive vres (S : Type) : Type :=
| VRet (s : S) (code : Z)
| VUB.
Arguments VRet {S} _ _.
Arguments VUB {S}.
Definition visitor (S : Type) := S -> event -> vres S.

(** Running a program against a visitor. [None]: the visitor performed an undefined access. *)
Fixpoint run {S A} (v : visitor S) (p : prog A) (s : S) : option (S * outcome A) :=
  match p with
  | Ret o => Some (s, o)
  | Call e k =>
      match v s e with
      | VRet s' c => run v (k c) s'
      | VUB => None
      end
  end.

(** The calls a program makes against a visitor that always returns GEOARROW_OK, and its outcome. *)
Fixpoint trace {A} (p : prog A) : list event * outcome A :=
  match p with
  | Ret o => ([], o)
  | Call e k => let (evs, o) := trace (k 0) in (e :: evs, o)
  end.
