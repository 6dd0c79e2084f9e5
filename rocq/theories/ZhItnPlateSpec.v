(** What train numbers and number plates are, said and written (C87).  Written from the English
    description of itn/chinese/rules/train_number.py:27-34, license_plate.py:27-34 and their tables,
    not from the model. *)
From Coq Require Import List NArith String Bool.
From Verif Require Import Text.
Import ListNotations.
Local Open Scope list_scope.

(** The pair of the characters of two texts of one character each. *)
Definition pairs (said written : text) : list (N * N) := combine said written.
(** A digit as it is said, and as it is written. *)
Definition digit_names : list (N * N) :=
  Eval vm_compute in pairs (u "零洞一幺壹二两贰三叁四肆五伍六陆七柒拐八捌九玖") (u "00111222334455667778899").
Definition digit_named (c d : N) : Prop := In (c, d) digit_names.
(** The kinds of trains: 高 (high speed) is G, and so on. *)
Definition train_kinds : list (N * N) := Eval vm_compute in pairs (u "高动特快直慢临") (u "GDTKZLL").
Definition train_kind (c d : N) : Prop := In (c, d) train_kinds.
(** The provinces on number plates. *)
Definition provinces : text := Eval vm_compute in u "京津沪渝冀豫云辽黑湘皖鲁新苏浙赣鄂桂甘晋蒙陕吉闽贵粤青藏川宁琼".
Definition province (c : N) : Prop := In c provinces.
Definition letter (c : N) : Prop := (65 <= c <= 90)%N \/ (97 <= c <= 122)%N.
(** A letter stays, a said digit becomes a digit. *)
Definition plate_char (c d : N) : Prop := letter c /\ d = c \/ digit_named c d.
