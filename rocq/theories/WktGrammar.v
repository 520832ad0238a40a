(** * The grammar of well-known text *)
From Verif Require Import Base Text GeomSpec WktSpec.

(** Whitespace: spaces, tabs, newlines and carriage returns. *)
Definition blank (t : bytes) : Prop := Forall (fun c => In c [32; 9; 10; 13]%N) t.
(** Characters that end a word: whitespace, NUL, comma and parentheses. *)
Definition ends_word (c : N) : Prop := In c [0; 32; 9; 10; 13; 44; 40; 41]%N.

Section Lists.
Context {A : Type}.
Variable item : A -> bytes -> Prop.
(** "item , item , ... item" with whitespace before and after each comma, and after the last item. *)
Fixpoint list_text (xs : list A) (t : bytes) : Prop :=
  match xs with
  | [] => False
  | x :: xs' =>
      exists t1 b1, item x t1 /\ blank b1 /\
      match xs' with
      | [] => t = t1 ++ b1
      | _ => exists b2 u, blank b2 /\ list_text xs' u /\ t = t1 ++ b1 ++ $"," ++ b2 ++ u
      end
  end.
(** "EMPTY", or the list in parentheses. *)
Definition paren_text (xs : list A) (t : bytes) : Prop := exists b u, blank b /\ list_text xs u /\ t = $"(" ++ b ++ u ++ $")".
Definition empty_or_text (xs : list A) (t : bytes) : Prop := (xs = [] /\ t = $"EMPTY") \/ paren_text xs t.
End Lists.

Section Grammar.
(** The numbers that a text may denote. *)
Variable parse : bytes -> option N.
(** Whether whitespace may follow the first parenthesis of a multipoint written without inner parentheses. *)
Variable lax : bool.

(** A number: a word that denotes it. *)
Definition numeral (w : N) (t : bytes) : Prop := parse t = Some w /\ Forall (fun c => ~ ends_word c) t.

(** Ordinates separated by whitespace. *)
Fixpoint ordinates_text (ws : list N) (t : bytes) : Prop :=
  match ws with
  | [] => False
  | [w] => numeral w t
  | w :: r => exists t1 b u, numeral w t1 /\ blank b /\ b <> [] /\ ordinates_text r u /\ t = t1 ++ b ++ u
  end.
Definition coord_text (d : dim) (c : coord) (t : bytes) : Prop := length c = ndim d /\ ordinates_text c t.
Definition seq_text (d : dim) (cs : list coord) (t : bytes) : Prop := empty_or_text (coord_text d) cs t.

(** The tag and the dimensions, then the body; whitespace is needed before the word EMPTY. *)
Definition dim_text (d : dim) (t : bytes) : Prop :=
  match d with
  | XY => t = []
  | XYZ => exists b, blank b /\ b <> [] /\ t = b ++ $"Z"
  | XYM => exists b, blank b /\ b <> [] /\ t = b ++ $"M"
  | XYZM => exists b, blank b /\ b <> [] /\ t = b ++ $"ZM"
  end.
Definition tagged_text (g : geom) (body : bytes -> Prop) (t : bytes) : Prop :=
  exists dt b u, dim_text (geom_dim g) dt /\ blank b /\ body u /\ (u = $"EMPTY" -> b <> []) /\ t = wkt_tag g ++ dt ++ b ++ u.

(** The members of a multipoint, multilinestring or multipolygon have its dimensions and no tag; those of a collection have
    their own. *)
Fixpoint body_text (g : geom) (t : bytes) : Prop :=
  match g with
  | GPoint d cs => (length cs <= 1)%nat /\ seq_text d cs t
  | GLine d cs => seq_text d cs t
  | GPoly d rings => empty_or_text (seq_text d) rings t
  | GColl CMultipoint d parts =>
      empty_or_text (fun g t => match g with GPoint d' _ => d' = d /\ body_text g t | _ => False end) parts t \/
      (exists b u, (b = [] \/ (lax = true /\ blank b)) /\
         list_text (fun g t => match g with GPoint d' [c] => d' = d /\ coord_text d c t | _ => False end) parts u /\
         t = $"(" ++ b ++ u ++ $")")
  | GColl CMultilinestring d parts =>
      empty_or_text (fun g t => match g with GLine d' _ => d' = d /\ body_text g t | _ => False end) parts t
  | GColl CMultipolygon d parts =>
      empty_or_text (fun g t => match g with GPoly d' _ => d' = d /\ body_text g t | _ => False end) parts t
  | GColl CCollection d parts =>
      empty_or_text (fun g t => tagged_text g (body_text g) t) parts t
  end.

(** A text of [g]. *)
Definition wkt_text (g : geom) (t : bytes) : Prop :=
  exists b1 u b2, blank b1 /\ tagged_text g (body_text g) u /\ blank b2 /\ t = b1 ++ u ++ b2.
End Grammar.

(** Parsers that accept neither the empty text nor a text starting with E. *)
Definition number_parser (parse : bytes -> option N) : Prop := parse [] = None /\ forall t, parse (69%N :: t) = None.

(** Coordinate batches of 1 to 64 coordinates. *)
Definition batches_of_64 (evs : list event) : Prop :=
  Forall (fun e => match e with ECoords _ cs => (1 <= length cs <= 64)%nat | _ => True end) evs.
