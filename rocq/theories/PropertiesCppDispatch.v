(** * C66: generic code over arrays in C++ *)
From Verif Require Import Base BaseFacts TypesModel TypesSpec GeomSpec ArrowModel ArrayViewModel NativeSpec SerialSpec
  CppCoordModel CppWkbModel CppWkbSpec CppWkbWitness CppArrayModel CppArraySpec PropertiesArrays PropertiesCppArrays CppDispatchModel CppDispatchProofs.
Local Open Scope Z_scope.

(** Every number is the type of one array class, with which [expr] is called, or an exception is thrown: native types other than boxes, WKB, and
    everything else. *)
Theorem C66_dispatch : forall t,
  (exists k l d, k <> KBox /\ t = make_type (geometry_kind_code k) (dim_code d) (layout_code l) /\ forall A (expr : array_class -> outcome A), dispatch_array t expr = expr (NativeClass k d)) \/
  (t = TYPE_WKB /\ forall A (expr : array_class -> outcome A), dispatch_array t expr = expr WkbClass) \/
  ((forall k l d, k <> KBox -> t <> make_type (geometry_kind_code k) (dim_code d) (layout_code l)) /\ t <> TYPE_WKB /\ forall A (expr : array_class -> outcome A), dispatch_array t expr = Err THROWN).
Proof. exact dispatch_spec. Qed.
Print Assumptions C66_dispatch.
(** So generic code that initializes the array from a view of any array and visits it, visits the vertices and edges of its elements that are not null. *)
Theorem C66_native : forall k l d v a els, k <> KBox ->
  let t := make_type (geometry_kind_code k) (dim_code d) (layout_code l) in
  view_history t v -> native_ok k l d a -> contents k l d a els ->
  exists v', set_array v a = Ok v' /\
    (forall dst, dispatch_array t (init_and_visit_vertices v' dst) = Ok (map (fun p => as_dims dst (read_as d p)) (elements_vertices els))) /\
    dispatch_array t (init_and_visit_edges v') = Ok (map (both (fun p => snd (read_as d p))) (elements_edges els)).
Proof. exact dispatch_vertices. Qed.
Print Assumptions C66_native.
Theorem C66_wkb : forall v a els ts, av_type v = TYPE_WKB -> serial_ok Offsets32 a -> serial_contents Offsets32 a els -> Forall2 denotes_tree els ts ->
  exists v', set_array v a = Ok v' /\
    (forall dst, dispatch_array TYPE_WKB (init_and_visit_vertices v' dst) = Ok (map (as_dims dst) (trees_vertices ts))) /\
    dispatch_array TYPE_WKB (init_and_visit_edges v') = Ok (map (both (as_dims XYZM)) (trees_edges ts)).
Proof. exact dispatch_wkb. Qed.
Print Assumptions C66_wkb.

(** The linestring array of C27_ex, dispatched as what it is and as another type *)
Example C66_ex : native_ok KLinestring Separate XY C27_array /\ contents KLinestring Separate XY C27_array C27_els /\
  exists v v', array_view_init (make_type 2 1 1) = Ok v /\ view_history (make_type 2 1 1) v /\ set_array v C27_array = Ok v' /\
    dispatch_array 2 (init_and_visit_vertices v' XYZ) = Ok [[20; 21; qnan]; [30; 31; qnan]; [40; 41; qnan]]%N /\
    dispatch_array 2 (init_and_visit_edges v') = Ok [([20; 21], [30; 31])]%N /\
    dispatch_array 1003 (init_and_visit_edges v') = Err THROWN /\ dispatch_array 990 (init_and_visit_edges v') = Err THROWN.
Proof.
  split; [apply C41_ex|]. split; [apply C41_ex|]. destruct C41_ex as (_ & _ & v & v' & arr & E1 & E2 & _). exists v, v'. split; [exact E1|]. split; [constructor; exact E1|]. split; [exact E2|].
  vm_compute in E1. injection E1 as <-. vm_compute in E2. injection E2 as <-. split; [vm_compute; reflexivity|]. split; [vm_compute; reflexivity|]. split; vm_compute; reflexivity.
Qed.
