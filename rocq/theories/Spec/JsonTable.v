(** C92: tables and JSON texts.  Nothing of the exporter. *)
From Verif.Spec Require Export PyList Rows.
From Verif.Model Require Export Codec.
Local Open Scope Z_scope.

(** a value that JSON has *)
Definition json_value (v : cval) : Prop :=
  match v with CNone | CInt _ | CFloat _ | CStr _ => True | _ => False end.
(** a value that JSON can be given *)
Definition serialisable (v : cval) : Prop := match v with CBytes _ => False | _ => True end.

(** [js] are the values of the rows [positions] of the column [col], as [tr] writes them *)
Definition rows_of {A B} (tr : A → res B) (positions : list Z) (col : list A) (js : list B) : Prop :=
  Forall2 (λ p j, ∃ v, znth col p = Some v ∧ tr v = Ok j) positions js.
