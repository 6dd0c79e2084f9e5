(** What it means for two Python values to be the same JSON data: equal but for the
    order of dictionary keys. *)
From Coq Require Import List NArith ZArith Permutation.
From Verif Require Import Text AlignSpec CacheModel.
Import ListNotations.

Inductive json_same : json -> json -> Prop :=
| same_null : json_same JNull JNull
| same_bool b : json_same (JBool b) (JBool b)
| same_int z : json_same (JInt z) (JInt z)
| same_str t : json_same (JStr t) (JStr t)
| same_arr l m : Forall2 json_same l m -> json_same (JArr l) (JArr m)
| same_obj l m m' : Permutation m m' ->
    Forall2 (fun a b => fst a = fst b /\ json_same (snd a) (snd b)) l m' -> json_same (JObj l) (JObj m).

(** A Python value: the keys of every dict are distinct. *)
Inductive json_wf : json -> Prop :=
| wf_null : json_wf JNull
| wf_bool b : json_wf (JBool b)
| wf_int z : json_wf (JInt z)
| wf_str t : json_wf (JStr t)
| wf_arr l : Forall json_wf l -> json_wf (JArr l)
| wf_obj l : NoDup (map fst l) -> Forall json_wf (map snd l) -> json_wf (JObj l).

(** All its strings can be encoded in UTF-8 (no lone surrogates). *)
Inductive json_encodable : json -> Prop :=
| en_null : json_encodable JNull
| en_bool b : json_encodable (JBool b)
| en_int z : json_encodable (JInt z)
| en_str t : encodable t -> json_encodable (JStr t)
| en_arr l : Forall json_encodable l -> json_encodable (JArr l)
| en_obj l : Forall encodable (map fst l) -> Forall json_encodable (map snd l) -> json_encodable (JObj l).
