(** * Text as bytes *)
From Coq Require Export String Ascii.
From Coq Require Export List.
Export ListNotations.
From Verif Require Import Base.

(** The ASCII bytes of a string constant. *)
Definition str (s : string) : bytes := map N_of_ascii (list_ascii_of_string s).
Global Arguments str : simpl never.
Notation "$ s" := (str s%string) (at level 1, format "$ s").

(** [t1 ++ ", " ++ t2 ++ ... ]: texts separated by a comma and a space. *)
Fixpoint commas (ts : list bytes) : bytes :=
  match ts with
  | [] => []
  | [t] => t
  | t :: r => t ++ $", " ++ commas r
  end.
(** Texts separated by single spaces. *)
Fixpoint spaced (ts : list bytes) : bytes :=
  match ts with
  | [] => []
  | [t] => t
  | t :: r => t ++ $" " ++ spaced r
  end.
