(** * Specification: values of builders *)
From Coq Require Import String List NArith ZArith Bool SpecFloat.
From Verif Require Import Base DualBuffer PackDesc GenRecv GenSend Floats.
Import ListNotations.
Open Scope N_scope.
Open Scope list_scope.

(** The value of a scaled field with a signed raw type is not a number *)
Inductive is_nan : forall f, fvalue f -> Prop :=
| is_nan_intro n a t s scale as_ref size_fn :
    scalar_signed s = true ->
    is_nan (mk_field n a (Scalar s) (Some (float_map t s scale)) as_ref size_fn) S754_nan.

(** One of the values given to a builder is not a number (in a field with a signed raw type) *)
Fixpoint has_nan (fs : list field) : builder fs -> Prop :=
  match fs with
  | [] => fun _ => False
  | f :: fs' => fun b => is_nan f (fst b) \/ has_nan fs' (snd b)
  end.

(** The values of the getters, in the order of the fields *)
Fixpoint getter_values (payload : list byte) (gs : list getter) : res (builder (map g_field gs)) :=
  match gs with
  | [] => Ret tt
  | g :: gs' =>
      let! v := g_val g payload in
      let! b := getter_values payload gs' in
      Ret (v, b)
  end.

(** [b] is the builder with every field set to what the getter of that field returns.  (The field lists
    [map g_field (getters p)] and [p_fields p] are the same list; the equality of pairs says so.) *)
Definition copied (p : pack_desc) (payload : list byte) (b : builder (p_fields p)) : Prop :=
  exists b', getter_values payload (getters p) = Ret b' /\
             existT builder (map g_field (getters p)) b' = existT builder (p_fields p) b.
