(** * The messages of exceptions of type objects *)
From Verif Require Import Base BaseFacts Text TypesModel TypesSpec GeomSpec SchemaModel CppDataTypeModel CppWkbModel WktErrorModel WktErrorSpec WktErrorMessages CppErrorModel CppErrorProofs
  CppTypeErrorModel CppTypeErrorSpec.
Local Open Scope Z_scope.

Ltac each H := cbn [In geometry_names dimensions_names coord_type_names] in H; repeat (destruct H as [H|H]; [injection H as <- <-|]); [..|destruct H].
Ltac some_combination := solve [
  (exists KPoint + exists KLinestring + exists KPolygon + exists KMultipoint + exists KMultilinestring + exists KMultipolygon + exists KBox);
  (exists XY + exists XYZ + exists XYM + exists XYZM); (exists Separate + exists Interleaved);
  split; [first [discriminate | intros _; reflexivity] | split; [reflexivity | split; reflexivity]] ].

Lemma parts_told g gn d dn c cn : In (g, gn) geometry_names -> In (d, dn) dimensions_names -> In (c, cn) coord_type_names -> g <> 7 ->
  (is_combination g d c -> make_parts_told g d c = Ok None) /\
  (~ is_combination g d c -> make_parts_told g d c = Ok (Some (combination_text gn dn cn))).
Proof.
  intros Hg Hd Hc H7. split.
  - intros (k & dd & l & Hs & -> & -> & ->). destruct k, dd, l; try reflexivity; specialize (Hs eq_refl); discriminate Hs.
  - intros Hn. each Hg; try congruence; each Hd; each Hc; try (vm_compute; reflexivity); exfalso; apply Hn; some_combination.
Qed.

(** The same calls as in the model of type objects, where the exception has no message. *)
Lemma parts_thrown g gn d dn c cn b : In (g, gn) geometry_names -> In (d, dn) dimensions_names -> In (c, cn) coord_type_names ->
  match make_parts_told g d c with
  | Ok None => exists o, make_from_parts g d c [] b = Ok o
  | Ok (Some _) => make_from_parts g d c [] b = Err THROWN
  | _ => False
  end.
Proof. intros Hg Hd Hc. each Hg; each Hd; each Hc; vm_compute; first [reflexivity | (eexists; reflexivity)]. Qed.

Lemma simple_multi_told g gn : In (g, gn) geometry_names ->
  (1 <= g <= 6 -> simple_told g = None /\ multi_told g = None) /\
  (~ 1 <= g <= 6 -> simple_told g = Some ($"Can't make simple type from geometry type " ++ gn) /\
                    multi_told g = Some ($"Can't make multi type from geometry type " ++ gn)).
Proof. intros Hg. each Hg; (split; intros H; [first [lia | split; reflexivity] | first [lia | split; reflexivity]]). Qed.

Lemma extension_told t : 0 <= t ->
  match extension_name_told t with
  | None => exists name, extension_name_from_type t = Some name
  | Some what => extension_name_from_type t = None /\ exists n, decimal_of (Z.to_N t) n /\ what = $"Extension name not available for type with id " ++ n
  end.
Proof.
  intros Ht. unfold extension_name_told. destruct (extension_name_from_type t) as [name|]; [eauto|]. split; [reflexivity|].
  destruct (to_string_ok t) as (n & Hn & ->). exists n. replace (Z.abs_N t) with (Z.to_N t) in Hn by lia. split; [exact Hn|]. destruct (Z.ltb_spec t 0); [lia|reflexivity].
Qed.
