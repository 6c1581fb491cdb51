(** The ways to write a configuration in full. *)
From Verif Require Import Model.Base Model.Value Model.Config Spec.ScalarSpec Spec.ConfigDocSpec.
Open Scope string_scope.
Open Scope list_scope.

(** The options of the document and no others, in any order; flags and numbers in any way; all else as it is. *)
Inductive writes : data -> doc -> Prop :=
| writes_leaf d : writes d (Leaf d)
| writes_flag d b : spells_flag d b -> writes d (Flag b)
| writes_number d z : spells_number d z -> writes d (Number z)
| writes_decimal d q : spells_decimal d q -> writes d (Decimal q)
| writes_value d : writes d (Value d)
| writes_one b : writes (DBool b) (Value (DInt (one_or_zero b)))
| writes_items l l' : Forall2 writes l l' -> writes (DList l) (Items l')
| writes_table m m' : Forall2 (fun a b => fst a = fst b /\ writes (snd a) (snd b)) m m' -> writes (DMap m) (Table m')
| writes_options m m' : (forall k, dget m k = None <-> dget m' k = None) ->
    (forall k d x, dget m k = Some d -> dget m' k = Some x -> writes d x) -> writes (DMap m) (Options m').
