(** * What the kernels compute *)
From Verif Require Import Base GeomSpec FloatSpec ArrowModel NativeSpec WktReaderModel ArrayReaderModel KernelModel.
Local Open Scope Z_scope.

(** ** Pushing batches *)
Section Batches.
  Context {St Out : Type}.
  Variable k : kernel St Out.
  Variable parse : bytes -> option N.
  (** The states in which the readers are when feature [i] of batch [j] is read. *)
  Variable wkt_state : nat -> Z -> rst.
  Variable wkb_state : nat -> Z -> bool.

  (** One batch after another, while that succeeds: the outputs, in order. *)
  Fixpoint push_batches (j : nat) (r : areader) (s : St) (batches : list arrow_array) : outcome (areader * St * list (option Out)) :=
    match batches with
    | [] => Ok (r, s, [])
    | a :: batches =>
        match push_batch k parse (wkt_state j) (wkb_state j) r s a with
        | KRet r s c out =>
            if c =? 0 then
              do (rs, outs) <- push_batches (S j) r s batches;
              Ok (rs, out :: outs)
            else Err c
        | KUB => UB
        | KNoFuel => NoFuel
        end
    end.

  (** All batches, on a reader for arrays of type [t], then the final output. *)
  Definition aggregate (t : Z) (s : St) (batches : list arrow_array) : outcome Out :=
    do r <- reader_init t;
    do (rs, _) <- push_batches 0 r s batches;
    let '(_, s) := rs : areader * St in
    let '(_, c, out) := kn_finish k s in
    if c =? 0 then or_ub out else Err c.
End Batches.

(** ** Bounds *)

(** Ordinate [j] of every coordinate of a geometry, of features. *)
Definition ordinates (j : nat) (g : geom) : list N := map (fun c => nth j (snd c) 0%N) (geom_coords g).
Definition feature_ordinates (j : nat) (fs : list (option geom)) : list N :=
  flat_map (fun f => match f with Some g => ordinates j g | None => [] end) fs.

Definition pos_inf : N := 0x7FF0000000000000.
Definition neg_inf : N := 0xFFF0000000000000.

(** The least of some doubles, NaNs ignored: one of them, or infinity, such that no other is less. The greatest. *)
Definition least (ws : list N) (m : N) : Prop :=
  (m = pos_inf \/ In m ws) /\ is_nan m = false /\ Forall (fun w => double_lt w m = false) ws.
Definition greatest (ws : list N) (m : N) : Prop :=
  (m = neg_inf \/ In m ws) /\ is_nan m = false /\ Forall (fun w => double_lt m w = false) ws.

Definition tight (xs ys : list N) (x0 y0 x1 y1 : N) : Prop :=
  least xs x0 /\ least ys y0 /\ greatest xs x1 /\ greatest ys y1.

(** Features of well-formed geometries. *)
Definition wf_feature (f : option geom) : Prop := forall g, f = Some g -> wf_geom g.

Definition nulls (fs : list (option geom)) : Z :=
  Z.of_nat (length (filter (fun f : option geom => match f with None => true | Some _ => false end) fs)).

(** An array of boxes: one per feature, tight, and null where the feature is. *)
Definition boxes (a : arrow_array) (fs : list (option geom)) : Prop :=
  native_ok KBox Separate XY a /\ aa_length a = Z.of_nat (length fs) /\ aa_null_count a = nulls fs /\
  forall i f, nth_error fs i = Some f ->
    match f with
    | None => valid_at a (Z.of_nat i) = Some false
    | Some g =>
        valid_at a (Z.of_nat i) = Some true /\
        exists x0 y0 x1 y1, box_at a (Z.of_nat i) x0 y0 x1 y1 /\ tight (ordinates 0 g) (ordinates 1 g) x0 y0 x1 y1
    end.

(** ** Geometry types *)

(** The ISO WKB code of a geometry. *)
Definition iso_code (g : geom) : Z := Z.of_N (geom_code g) + 1000 * (Z.of_N (dimN (geom_dim g)) - 1).

(** An array of int32 values without nulls. *)
Definition int32_array (a : arrow_array) (zs : list Z) : Prop :=
  aa_length a = Z.of_nat (length zs) /\ aa_null_count a = 0 /\
  forall i z, nth_error zs i = Some z ->
    valid_at a (Z.of_nat i) = Some true /\
    exists b, second_buffer a = Some b /\ int32_at b (aa_offset a + Z.of_nat i) = Some z.
