(** * What writer objects are to do *)
From Verif Require Import Base GeomSpec CppWriterModel.
Local Open Scope Z_scope.

(** Calls by which the features [fss] are written, one array for each list: settings anywhere, features in any number of pieces. *)
Inductive calls_for : list (list (option geom)) -> list writer_call -> Prop :=
  | no_calls : calls_for [] []
  | call_precision p fss calls : calls_for fss calls -> calls_for fss (CallSetPrecision p :: calls)
  | call_flat flat fss calls : calls_for fss calls -> calls_for fss (CallSetFlatMultipoint flat :: calls)
  | call_visit fs1 evs fs fss calls : features_events fs1 evs -> calls_for (fs :: fss) calls -> calls_for ((fs1 ++ fs) :: fss) (CallVisit evs :: calls)
  | call_finish fss calls : calls_for fss calls -> calls_for ([] :: fss) (CallFinish :: calls).

(** The last settings before the visitor is first used, if those at the start are [precision] and [flat] *)
Fixpoint first_settings (precision : Z) (flat : bool) (calls : list writer_call) : Z * bool :=
  match calls with
  | CallSetPrecision p :: calls => first_settings p flat calls
  | CallSetFlatMultipoint f :: calls => first_settings precision f calls
  | CallFinish :: calls => first_settings precision flat calls
  | CallVisit _ :: _ | [] => (precision, flat)
  end.

Definition is_flat_call (call : writer_call) : bool := match call with CallSetFlatMultipoint _ => true | _ => false end.
Definition is_setting (call : writer_call) : bool := match call with CallSetPrecision _ | CallSetFlatMultipoint _ => true | _ => false end.
