(** The token-stream language, stated on its own: nothing here mentions the
    parser.  Characters are code points; 32 is the space, 34 the quote, 92 the
    backslash. *)
From Coq Require Import List NArith String.
From Verif Require Import Text.
Import ListNotations.
Local Open Scope list_scope.

(** ASCII letters and the underscore. *)
Definition letter (c : N) : Prop :=
  (65 <= c <= 90 \/ 97 <= c <= 122 \/ c = 95)%N.
Definition is_name (t : text) : Prop := t <> [] /\ Forall letter t.

(** [decodes b v]: the text [b] between two quotes stands for value [v]. *)
Inductive decodes : text -> text -> Prop :=
| dec_nil : decodes [] []
| dec_plain c b v : c <> 34%N -> c <> 92%N -> decodes b v -> decodes (c :: b) (c :: v)
| dec_escape c b v : c = 34%N \/ c = 92%N -> decodes b v -> decodes (92%N :: c :: b) (c :: v)
| dec_other c b v : c <> 34%N -> c <> 92%N -> decodes b v ->
    decodes (92%N :: c :: b) (92%N :: c :: v).

(** The inside of a token: fields, any number of spaces around them. *)
Inductive fields_text : text -> list (text * text) -> Prop :=
| ft_nil n : fields_text (repeat 32%N n) []
| ft_cons n key b v rest fs :
    is_name key -> decodes b v -> fields_text rest fs ->
    fields_text (repeat 32%N n ++ key ++ u ": """ ++ b ++ u """" ++ rest) ((key, v) :: fs).

(** One token: [name { fields }], no key twice. *)
Definition token_text (t : text) (name : text) (fs : list (text * text)) : Prop :=
  exists body, t = name ++ u " { " ++ body ++ u "}" /\
    is_name name /\ fields_text body fs /\ NoDup (map fst fs).

(** What a stream denotes: each token with its position. *)
Record stoken := SToken {
  st_name : text; st_from : nat; st_to : nat; st_fields : list (text * text) }.

(** [stream o t ts]: text [t], which begins at offset [o], denotes [ts]. *)
Inductive stream : nat -> text -> list stoken -> Prop :=
| stream_nil o n : stream o (repeat 32%N n) []
| stream_cons o n t name fs rest ts :
    token_text t name fs ->
    stream (o + n + List.length t) rest ts ->
    stream o (repeat 32%N n ++ t ++ rest)
      (SToken name (o + n) (o + n + List.length t) fs :: ts).

(** Reordering, as a relation between the fields of a token before and after. *)
Definition schema := list (text * list text).

Definition mentions (key : text) (fs : list (text * text)) : Prop := In key (map fst fs).

(** [sublist_of P l l']: [l'] is what remains of [l], in order, of the elements satisfying [P]. *)
Inductive kept {A} (P : A -> Prop) : list A -> list A -> Prop :=
| kept_nil : kept P [] []
| kept_yes x l l' : P x -> kept P l l' -> kept P (x :: l) (x :: l')
| kept_no x l l' : ~ P x -> kept P l l' -> kept P (x :: l) l'.

(** Schema keys first in schema order, the others after in source order. *)
Definition schema_order (keys : list text) (fs fs' : list (text * text)) : Prop :=
  exists front back, fs' = front ++ back /\
    kept (fun k => mentions k fs) keys (map fst front) /\
    kept (fun kv => ~ In (fst kv) keys) fs back.

Definition keeps_order (sc : schema) (name : text) (fs : list (text * text)) : Prop :=
  In (u "preserve_order", u "true") fs \/ ~ In name (map fst sc).

Definition reordered (sc : schema) (name : text) (fs fs' : list (text * text)) : Prop :=
  (keeps_order sc name fs -> fs' = fs) /\
  (~ keeps_order sc name fs ->
     forall keys, In (name, keys) sc -> schema_order keys fs fs').

(** A schema that is a dict (no token name twice) listing no key twice. *)
Definition good_schema (sc : schema) : Prop :=
  NoDup (map fst sc) /\ Forall (fun e => NoDup (snd e)) sc.

(** The canonical text of a token and of a list of tokens. *)
Inductive escaped : text -> text -> Prop :=
| esc_nil : escaped [] []
| esc_plain c v b : c <> 34%N -> c <> 92%N -> escaped v b -> escaped (c :: v) (c :: b)
| esc_quote v b : escaped v b -> escaped (34%N :: v) (92%N :: 34%N :: b)
| esc_bsl v b : escaped v b -> escaped (92%N :: v) (92%N :: 92%N :: b).

Inductive canonical_fields : list (text * text) -> text -> Prop :=
| cf_nil : canonical_fields [] []
| cf_cons k v fs b t : escaped v b -> canonical_fields fs t ->
    canonical_fields ((k, v) :: fs) (u " " ++ k ++ u ": """ ++ b ++ u """" ++ t).

Definition canonical_token (name : text) (fs : list (text * text)) (t : text) : Prop :=
  exists body, canonical_fields fs body /\ t = name ++ u " {" ++ body ++ u " }".

(** The field orders shipped with the parser (token_parser.py:19-38), one line per
    token: parser name, token name, fields in the order they are written out. *)
Local Open Scope string_scope.
Definition shipped : list (string * string * string) :=
  [ ("tn", "date", "year month day");
    ("tn", "fraction", "denominator numerator");
    ("tn", "measure", "denominator numerator value");
    ("tn", "money", "value currency");
    ("tn", "time", "noon hour minute second");
    ("en_tn", "date", "preserve_order text day month year");
    ("en_tn", "money", "integer_part fractional_part quantity currency_maj");
    ("itn", "date", "year month day preserve_order");
    ("itn", "fraction", "sign numerator denominator");
    ("itn", "measure", "numerator denominator value units");
    ("itn", "money", "currency value decimal quantity");
    ("itn", "time", "hour minute second noon zone");
    ("itn", "telephone", "country_code number_part");
    ("itn", "electronic", "username domain protocol") ].
(** The words of a text: its maximal runs without spaces (for single spaces between). *)
Fixpoint words (t : text) : list text :=
  match t with
  | nil => [nil]
  | c :: r =>
      if (c =? 32)%N then nil :: words r
      else match words r with
           | w :: ws => (c :: w) :: ws
           | nil => [[c]]
           end
  end.
Definition has_order (parser name : text) (keys : list text) : Prop :=
  exists p n fs, In (p, n, fs) shipped /\ parser = u p /\ name = u n /\ keys = words (u fs).
