(** * Histories of a WKT writer *)
From Verif Require Import Base Text GeomSpec VisitorModel VisitorSpec BufferModel ArraySpec WktSpec WktWriterModel.
Local Open Scope Z_scope.

(** A writer that holds nothing: after Init, and after Finish. *)
Record kclean (s : kst) : Prop := {
  kc_validity : k_validity s = None;
  kc_offsets : k_offsets s = [];
  kc_values : k_values s = buf_init;
  kc_length : k_length s = 0;
  kc_nulls : k_nulls s = 0
}.

(** Features whose geometry is of the kinds that WKT can express. *)
Definition expressible (f : option geom) : Prop := forall g, f = Some g -> typed g /\ wf_geom g.
Definition shallow (f : option geom) : Prop := forall g, f = Some g -> (nesting g <= 32)%nat.

Section Histories.
Variable print_double : N -> Z -> bytes.
Variable cfg : kcfg.

(** One feature after another, while that succeeds. *)
Fixpoint run_features (s : kst) (evss : list (list event)) : option (kst * Z) :=
  match evss with
  | [] => Some (s, 0)
  | evs :: r =>
      match wkt_feature print_double cfg s evs with
      | Some (s', c) => if c =? 0 then run_features s' r else Some (s', c)
      | None => None
      end
  end.

(** The text of a feature, without any limit. *)
Definition feature_text (f : option geom) : option bytes :=
  option_map (wkt (fun w => print_double w (kc_precision cfg)) (kc_flat cfg)) f.
Definition text_size (fs : list (option geom)) : Z :=
  Z.of_nat (length (concat (map (fun f => match feature_text f with Some b => b | None => [] end) fs))).
End Histories.

(** Coordinate batches as a coordinate view holds them: rows of [n] ordinates each. *)
Definition view_event (e : event) : Prop :=
  match e with ECoords n cs => (1 <= n)%N /\ Forall (fun c => N.of_nat (length c) = n) cs | _ => True end.
