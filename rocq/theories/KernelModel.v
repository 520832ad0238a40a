(** * Kernels: src/geoarrow/kernel.c *)
From Verif Require Import Base TypesModel GeomSpec VisitorModel BufferModel FloatModel ArrowModel BitmapModel ArrayViewModel
  BuilderModel WktReaderModel ArrayReaderModel.
Local Open Scope Z_scope.

(** ** Visitor-based kernels *)

(** kernel.c lines 120-133 (struct GeoArrowVisitorKernelPrivate) and 690-714: what tells the kernels apart. [St] is the state of
    the visitor and [Out] the type of the output. [kn_finish_push] is finish_push_batch and [kn_finish] is finish, called with
    somewhere to put the output: new state, code and output; [None] is undefined behaviour. *)
Record kernel (St Out : Type) := Kernel {
  kn_visitor : visitor St;
  kn_by_feature : bool;
  kn_finish_push : St -> option (St * Z * option Out);
  kn_finish : St -> St * Z * option Out
}.
Arguments kn_visitor {St Out} _.
Arguments kn_by_feature {St Out} _.
Arguments kn_finish_push {St Out} _ _.
Arguments kn_finish {St Out} _ _.

(** How a call of push_batch ends: the reader, the state of the visitor, the code and the output; [KUB] is undefined
    behaviour. *)
Inductive kres (St Out : Type) := KRet (r : areader) (s : St) (code : Z) (out : option Out) | KUB | KNoFuel.
Arguments KRet {St Out} _ _ _ _.
Arguments KUB {St Out}.
Arguments KNoFuel {St Out}.

Section Push.
  Context {St Out : Type}.
  Variable k : kernel St Out.
  Variable parse : bytes -> option N.
  Variable wkt_state : Z -> rst.
  Variable wkb_state : Z -> bool.

  Definition kfinish_push (r : areader) (s : St) : kres St Out :=
    match kn_finish_push k s with Some (s, c, out) => KRet r s c out | None => KUB end.

  (** kernel.c lines 216-224: the loop of kernel_push_batch_by_feature *)
  Fixpoint push_features (n : nat) (i : Z) (r : areader) (s : St) : kres St Out :=
    match n with
    | O => kfinish_push r s
    | S n =>
        match run (kn_visitor k) (reader_visit parse wkt_state wkb_state r i 1) s with
        | None => KUB
        | Some (s, Ok _) => push_features n (i + 1) r s
        | Some (s, Err c) =>
            if c =? EAGAIN then
              match kn_visitor k s EFeatEnd with
              | VUB => KUB
              | VRet s c => if c =? 0 then push_features n (i + 1) r s else KRet r s c None
              end
            else KRet r s c None
        | Some (_, UB) => KUB
        | Some (_, NoFuel) => KNoFuel
        end
    end.

  (** kernel.c lines 190-203 and 205-227: kernel_push_batch, kernel_push_batch_by_feature. Simplification: a reader that
      refuses the array is left as it was. *)
  Definition push_batch (r : areader) (s : St) (a : arrow_array) : kres St Out :=
    match reader_set_array r a with
    | UB => KUB
    | NoFuel => KNoFuel
    | Err c => KRet r s c None
    | Ok r =>
        if kn_by_feature k then push_features (Z.to_nat (aa_length a)) 0 r s
        else
          match run (kn_visitor k) (reader_visit parse wkt_state wkb_state r 0 (aa_length a)) s with
          | None => KUB
          | Some (s, Ok _) => kfinish_push r s
          | Some (s, Err c) => KRet r s c None
          | Some (_, UB) => KUB
          | Some (_, NoFuel) => KNoFuel
          end
    end.
End Push.

(** kernel.c lines 155-163: finish_push_batch_do_nothing *)
Definition no_output {St Out} (s : St) : option (St * Z * option Out) := Some (s, 0, None).
(** kernel.c lines 37-47: kernel_finish_void, with an output *)
Definition finish_void {St Out} (s : St) : St * Z * option Out := (s, EINVAL, None).

(** Methods that GeoArrowVisitorInitVoid (src/geoarrow/visitor.c) left in place. *)
Definition void {St} (s : St) : vres St := VRet s 0.

(** ** visit_void_agg *)

(** kernel.c lines 261-271, 691-692 and 74-86: the array of one null of type null *)
Definition null_array (n : Z) : arrow_array := ArrowArray n 0 n [] [].
Definition visit_void_agg : kernel unit arrow_array :=
  {| kn_visitor := fun s _ => void s; kn_by_feature := false; kn_finish_push := no_output;
     kn_finish := fun s => (s, 0, Some (null_array 1)) |}.

(** ** unique_geometry_types_agg *)

(** kernel.c lines 105-109: struct GeoArrowGeometryTypesVisitorPrivate *)
Record gtypes := GTypes { gs_type : N; gs_dims : N; gs_mask : N }.
(** kernel.c line 678 *)
Definition gtypes_init : gtypes := {| gs_type := 0; gs_dims := 0; gs_mask := 0 |}.

(** kernel.c lines 363-366: kGeoArrowGeometryTypeWkbValues *)
Definition type_values : list Z :=
  [-1000; -999; -998; -997; -996; -995; -994; -993; 0; 1; 2; 3; 4; 5; 6; 7; 1000; 1001; 1002; 1003; 1004; 1005; 1006; 1007;
   2000; 2001; 2002; 2003; 2004; 2005; 2006; 2007; 3000; 3001; 3002; 3003; 3004; 3005; 3006; 3007].

(** kernel.c lines 368-407. A shift by 64 or more is undefined. *)
Definition gtypes_visitor : visitor gtypes := fun s e =>
  match e with
  | EFeatStart => VRet {| gs_type := 0; gs_dims := 0; gs_mask := gs_mask s |} 0
  | EGeomStart t d =>
      if (gs_type s =? 0)%N then VRet {| gs_type := t; gs_dims := d; gs_mask := gs_mask s |} 0 else VRet s 0
  | ECoords _ (_ :: _) =>
      let shift := (gs_dims s * 8 + gs_type s)%N in
      if (64 <=? shift)%N then VUB
      else
        VRet {| gs_type := gs_type s; gs_dims := gs_dims s; gs_mask := N.lor (gs_mask s) (N.shiftl 1 shift) |} EAGAIN
  | _ => VRet s 0
  end.

(** The bytes of an int32_t. *)
Definition int32_bytes (z : Z) : bytes := le_bytes 4 (Z.to_N (z mod 2 ^ 32)).

(** kernel.c lines 423-466: kernel_finish_unique_geometry_types_agg. The values are written to memory that was reserved for
    them, and the array is finished while its length is 0, so there is nothing to validate. *)
Definition gtypes_finish (s : gtypes) : gtypes * Z * option arrow_array :=
  let found := filter (fun i => N.testbit (gs_mask s) (N.of_nat i)) (seq 0 40) in
  let values := map (fun i => nth i type_values 0) found in
  (s, 0, Some (ArrowArray (Z.of_nat (length values)) 0 0 [None; Some (flat_map int32_bytes values)] [])).

(** kernel.c lines 409-421 and 703-706 *)
Definition unique_geometry_types_agg : kernel gtypes arrow_array :=
  {| kn_visitor := gtypes_visitor; kn_by_feature := true; kn_finish_push := no_output; kn_finish := gtypes_finish |}.

(** ** box and box_agg *)

(** INFINITY and -INFINITY *)
Definition inf_word : N := 0x7FF0000000000000.
Definition neg_inf_word : N := 0xFFF0000000000000.

(** kernel.c lines 111-118: struct GeoArrowBox2DPrivate; [bx_x] and [bx_y] are min_values and max_values of the two
    dimensions. *)
Record boxst := BoxState {
  bx_null : bool;
  bx_x : N * N;
  bx_y : N * N;
  bx_validity : bitmap;
  bx_values : quad buf;
  bx_null_count : Z
}.

Definition bset_range (s : boxst) (null : bool) (x y : N * N) : boxst :=
  {| bx_null := null; bx_x := x; bx_y := y; bx_validity := bx_validity s; bx_values := bx_values s;
     bx_null_count := bx_null_count s |}.
Definition bset_out (s : boxst) (v : bitmap) (values : quad buf) (null_count : Z) : boxst :=
  {| bx_null := bx_null s; bx_x := bx_x s; bx_y := bx_y s; bx_validity := v; bx_values := values;
     bx_null_count := null_count |}.

(** kernel.c lines 678 and 683-686 *)
Definition box_init : boxst :=
  {| bx_null := false; bx_x := (0%N, 0%N); bx_y := (0%N, 0%N); bx_validity := bitmap_init; bx_values := qconst buf_init;
     bx_null_count := 0 |}.

(** kernel.c lines 552-561 (feat_start_box) and 623-627 *)
Definition box_reset (s : boxst) : boxst := bset_range s false (inf_word, neg_inf_word) (inf_word, neg_inf_word).

(** kernel.c lines 576-585: one dimension *)
Fixpoint widen (j : nat) (r : N * N) (cs : list coord) : option (N * N) :=
  match cs with
  | [] => Some r
  | c :: cs =>
      match nth_error c j with
      | None => None
      | Some v => widen j (if dlt v (fst r) then v else fst r, if dgt v (snd r) then v else snd r) cs
      end
  end.

(** kernel.c lines 570-589: coords_box *)
Definition coords_box (s : boxst) (cs : list coord) : vres boxst :=
  match widen 0 (bx_x s) cs, widen 1 (bx_y s) cs with
  | Some x, Some y => VRet (bset_range s (bx_null s) x y) 0
  | _, _ => VUB
  end.

(** kernel.c lines 501-512: box_flush *)
Definition box_flush (s : boxst) : boxst :=
  let put b w := buf_append b (le_bytes 8 w) in
  let v := bx_values s in
  bset_out s (bx_validity s)
    (Quad (put (q0 v) (fst (bx_x s))) (put (q1 v) (fst (bx_y s))) (put (q2 v) (snd (bx_x s))) (put (q3 v) (snd (bx_y s))))
    (bx_null_count s).

Definition box_length (s : boxst) : Z := Z.quot (b_size (q0 (bx_values s))) 8.

Section Junk.
  (** The contents of freshly allocated memory. *)
  Variable junk : nat -> N.

  (** kernel.c lines 591-612: feat_end_box *)
  Definition feat_end_box (s : boxst) : vres boxst :=
    let v := bx_validity s in
    let o :=
      if bx_null s then
        do v <- (if w_null (bm_buffer v) then bitmap_append junk v true (box_length s) else Ok v);
        do v <- bitmap_append junk v false 1;
        Ok (bset_out s v (bx_values s) (bx_null_count s + 1))
      else if negb (w_null (bm_buffer v)) then
        do v <- bitmap_append junk v true 1;
        Ok (bset_out s v (bx_values s) (bx_null_count s))
      else Ok s in
    match o with
    | Ok s => VRet (box_flush s) 0
    | Err c => VRet s c
    | _ => VUB
    end.

  (** kernel.c lines 651-655: the methods of the box kernel *)
  Definition box_visitor : visitor boxst := fun s e =>
    match e with
    | EFeatStart => VRet (box_reset s) 0
    | ENullFeat => VRet (bset_range s true (bx_x s) (bx_y s)) 0
    | ECoords _ cs => coords_box s cs
    | EFeatEnd => feat_end_box s
    | _ => void s
    end.
End Junk.

(** kernel.c lines 620-621: the methods of the box_agg kernel *)
Definition box_agg_visitor : visitor boxst := fun s e =>
  match e with
  | ECoords _ cs => coords_box s cs
  | _ => void s
  end.

(** kernel.c lines 490-499 and 514-550: array_box, box_finish. The buffers and the bitmap are handed over to the array (or the
    bitmap is reset). *)
Definition box_finish (s : boxst) : boxst * Z * option arrow_array :=
  let n := box_length s in
  let column b := FArray SDouble n [None; Some (b_data b)] [] in
  let v := bx_values s in
  let validity := if 0 <? bx_null_count s then flush_buffer 0 (Some (bm_buffer (bx_validity s))) else None in
  let a := FArray SStruct n [validity] [column (q0 v); column (q1 v); column (q2 v); column (q3 v)] in
  let emptied c := bset_out s bitmap_init (qconst buf_init) c in
  match validate_default a with
  | Ok _ => (emptied 0, 0, Some (with_null_count (to_arrow a) (bx_null_count s)))
  | Err c => (emptied (bx_null_count s), c, None)
  | _ => (emptied (bx_null_count s), EINVAL, None)
  end.

(** kernel.c lines 645-667 and 707-710 *)
Definition box_kernel (junk : nat -> N) : kernel boxst arrow_array :=
  {| kn_visitor := box_visitor junk; kn_by_feature := false; kn_finish_push := fun s => Some (box_finish s); kn_finish := finish_void |}.

(** kernel.c lines 614-643 and 711-714. [box_agg_init] is the state after start. *)
Definition box_agg_init : boxst := box_reset box_init.
Definition box_agg : kernel boxst arrow_array :=
  {| kn_visitor := box_agg_visitor; kn_by_feature := false; kn_finish_push := no_output;
     kn_finish := fun s => box_finish (box_flush s) |}.
