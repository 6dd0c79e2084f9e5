(** The JSON text the cache code writes and reads: json.dumps / json.dump with
    ensure_ascii=False and sort_keys=True (/repo/tn/cache.py:92, 818) and json.loads
    (cache.py:548), as CPython's json package implements them.  Model only.

    Simplifications: values are those of CacheModel.json (string keys, no floats:
    the code puts none there); a document with a float, NaN or Infinity is not read;
    RecursionError for very deep documents and the limit on digits of an int are left
    out. *)
From Coq Require Import List NArith ZArith Bool Arith String Decimal.
From Verif Require Import Text AlignModel AlignSpec CacheModel.
Import ListNotations.
Local Open Scope list_scope.

(** ** Writing. *)
(** Python's < on str: code point by code point. *)
Fixpoint text_ltb (a b : text) : bool :=
  match a, b with
  | _, [] => false
  | [], _ :: _ => true
  | x :: a', y :: b' => (x <? y)%N || ((x =? y)%N && text_ltb a' b')
  end.
(** sorted(dct.items()): by key, the keys of a dict being distinct. *)
Fixpoint insert_key {A} (kv : text * A) (l : list (text * A)) : list (text * A) :=
  match l with
  | [] => [kv]
  | kv' :: r => if text_ltb (fst kv') (fst kv) then kv' :: insert_key kv r else kv :: l
  end.
Fixpoint sort_keys {A} (l : list (text * A)) : list (text * A) :=
  match l with [] => [] | kv :: r => insert_key kv (sort_keys r) end.
(** Every dict in key order: the order in which sort_keys=True visits it. *)
Fixpoint sorted (v : json) : json :=
  match v with
  | JArr l => JArr (map sorted l)
  | JObj l => JObj (sort_keys (map (fun kv => (fst kv, sorted (snd kv))) l))
  | _ => v
  end.

(** json.encoder: ESCAPE, ESCAPE_DCT, py_encode_basestring. *)
Definition hex_digit (n : N) : N := (if n <? 10 then 48 + n else 87 + n)%N.
Definition escape_char (c : N) : text :=
  if (c =? 34)%N then [92; 34]%N
  else if (c =? 92)%N then [92; 92]%N
  else if (c =? 10)%N then [92; 110]%N
  else if (c =? 13)%N then [92; 114]%N
  else if (c =? 9)%N then [92; 116]%N
  else if (c =? 12)%N then [92; 102]%N
  else if (c =? 8)%N then [92; 98]%N
  else if (c <? 32)%N then [92; 117; 48; 48; hex_digit (c / 16); hex_digit (c mod 16)]%N
  else [c].
Definition write_string (t : text) : text := 34%N :: flat_map escape_char t ++ [34%N].
(** int.__repr__ *)
Fixpoint uint_text (d : uint) : text :=
  match d with
  | Nil => []
  | D0 r => 48%N :: uint_text r | D1 r => 49%N :: uint_text r | D2 r => 50%N :: uint_text r
  | D3 r => 51%N :: uint_text r | D4 r => 52%N :: uint_text r | D5 r => 53%N :: uint_text r
  | D6 r => 54%N :: uint_text r | D7 r => 55%N :: uint_text r | D8 r => 56%N :: uint_text r
  | D9 r => 57%N :: uint_text r
  end.
Definition write_int (z : Z) : text :=
  match z with
  | Z0 => [48%N]
  | Zpos p => uint_text (Pos.to_uint p)
  | Zneg p => 45%N :: uint_text (Pos.to_uint p)
  end.
(** _make_iterencode with item separator [comma] and key separator [colon]. *)
Fixpoint emit (comma colon : text) (v : json) : text :=
  match v with
  | JNull => u "null"
  | JBool true => u "true"
  | JBool false => u "false"
  | JInt z => write_int z
  | JStr t => write_string t
  | JArr l => 91%N :: join comma (map (emit comma colon) l) ++ [93%N]
  | JObj l => 123%N :: join comma (map (fun kv => write_string (fst kv) ++ colon ++ emit comma colon (snd kv)) l) ++ [125%N]
  end.
(** _canonical_json, cache.py:91-92; [None]: UnicodeEncodeError. *)
Definition canonical_json (v : json) : option bytes := encode (emit [44%N] [58%N] (sorted v)).
(** _write_manifest, cache.py:816-822: the bytes in the file (text mode, POSIX). *)
Definition manifest_bytes (v : json) : option bytes :=
  encode (emit [44; 32]%N [58; 32]%N (sorted v) ++ [10%N]).

(** ** Reading: json.scanner.c_make_scanner, json.decoder. *)
Definition ws (c : N) : bool := ((c =? 32) || (c =? 9) || (c =? 10) || (c =? 13))%N.
Fixpoint skip (t : text) : text := match t with c :: r => if ws c then skip r else t | [] => [] end.
Definition hex_value (c : N) : option N :=
  (if (48 <=? c) && (c <=? 57) then Some (c - 48)
   else if (97 <=? c) && (c <=? 102) then Some (c - 87)
   else if (65 <=? c) && (c <=? 70) then Some (c - 55) else None)%N.
Definition hex4 (t : text) : option (N * text) :=
  match t with
  | a :: b :: c :: d :: r =>
      match hex_value a, hex_value b, hex_value c, hex_value d with
      | Some a, Some b, Some c, Some d => Some (((a * 16 + b) * 16 + c) * 16 + d, r)%N
      | _, _, _, _ => None
      end
  | _ => None
  end.
(** The character an escape stands for, and what follows it. *)
Definition unescape (t : text) : option (N * text) :=
  match t with
  | [] => None
  | c :: r =>
      if (c =? 34)%N then Some (34%N, r) else if (c =? 92)%N then Some (92%N, r)
      else if (c =? 47)%N then Some (47%N, r) else if (c =? 98)%N then Some (8%N, r)
      else if (c =? 102)%N then Some (12%N, r) else if (c =? 110)%N then Some (10%N, r)
      else if (c =? 114)%N then Some (13%N, r) else if (c =? 116)%N then Some (9%N, r)
      else if (c =? 117)%N then
        match hex4 r with
        | None => None
        | Some (h, r1) =>
            if ((55296 <=? h) && (h <=? 56319))%N then
              match r1 with
              | 92%N :: 117%N :: r2 =>
                  match hex4 r2 with
                  | Some (l, r3) => if ((56320 <=? l) && (l <=? 57343))%N
                                    then Some (65536 + (h - 55296) * 1024 + (l - 56320), r3)%N
                                    else Some (h, r1)
                  | None => None
                  end
              | _ => Some (h, r1)
              end
            else Some (h, r1)
        end
      else None
  end.
(** scanstring, strict: the text after the opening quote. *)
Fixpoint read_string (fuel : nat) (t : text) : option (text * text) :=
  match fuel with
  | O => None
  | S fuel' =>
      match t with
      | [] => None
      | c :: r =>
          if (c =? 34)%N then Some ([], r)
          else if (c =? 92)%N then
            match unescape r with
            | Some (x, r') => match read_string fuel' r' with Some (s, q) => Some (x :: s, q) | None => None end
            | None => None
            end
          else if (c <? 32)%N then None
          else match read_string fuel' r with Some (s, q) => Some (c :: s, q) | None => None end
      end
  end.
Definition digit (c : N) : option (uint -> uint) :=
  if (c =? 48)%N then Some D0 else if (c =? 49)%N then Some D1 else if (c =? 50)%N then Some D2
  else if (c =? 51)%N then Some D3 else if (c =? 52)%N then Some D4 else if (c =? 53)%N then Some D5
  else if (c =? 54)%N then Some D6 else if (c =? 55)%N then Some D7 else if (c =? 56)%N then Some D8
  else if (c =? 57)%N then Some D9 else None.
Fixpoint read_digits (t : text) : uint * text :=
  match t with
  | [] => (Nil, [])
  | c :: r => match digit c with
              | Some f => let '(d, q) := read_digits r in (f d, q)
              | None => (Nil, t)
              end
  end.
(** _match_number_unicode: no leading zeros; a fraction or exponent is a float (not
    read here). *)
Definition read_nat (t : text) : option (N * text) :=
  match t with
  | 48%N :: r => Some (0%N, r)
  | _ => match read_digits t with
         | (Nil, _) => None
         | (d, r) => Some (N.of_uint d, r)
         end
  end.
Definition float_tail (t : text) : bool :=
  match t with c :: _ => ((c =? 46) || (c =? 101) || (c =? 69))%N | [] => false end.
Definition read_int (t : text) : option (json * text) :=
  let '(neg, r) := match t with 45%N :: r => (true, r) | _ => (false, t) end in
  match read_nat r with
  | Some (n, q) => if float_tail q then None else Some (JInt (if neg : bool then (- Z.of_N n)%Z else Z.of_N n), q)
  | None => None
  end.
Fixpoint take (lit t : text) : option text :=
  match lit, t with
  | [], _ => Some t
  | a :: l, b :: r => if (a =? b)%N then take l r else None
  | _ :: _, [] => None
  end.
(** dict(pairs): a later value replaces an earlier one, in its place. *)
Fixpoint dict_set (k : text) (v : json) (l : list (text * json)) : list (text * json) :=
  match l with
  | [] => [(k, v)]
  | (k', v') :: r => if text_eqb k k' then (k', v) :: r else (k', v') :: dict_set k v r
  end.
Definition dict_of (l : list (text * json)) : list (text * json) :=
  fold_left (fun d kv => dict_set (fst kv) (snd kv) d) l [].

(** scan_once, JSONArray, JSONObject.  [read_items]: after "[" or "," and spaces;
    [read_members] likewise. *)
Fixpoint read_value (fuel : nat) (t : text) : option (json * text) :=
  match fuel with
  | O => None
  | S fuel' =>
      match t with
      | [] => None
      | c :: r =>
          if (c =? 34)%N then match read_string (List.length t) r with Some (s, q) => Some (JStr s, q) | None => None end
          else if (c =? 123)%N then
            match skip r with
            | 125%N :: q => Some (JObj [], q)
            | r' => match read_members fuel' r' with Some (l, q) => Some (JObj (dict_of l), q) | None => None end
            end
          else if (c =? 91)%N then
            match skip r with
            | 93%N :: q => Some (JArr [], q)
            | r' => match read_items fuel' r' with Some (l, q) => Some (JArr l, q) | None => None end
            end
          else if (c =? 110)%N then match take (u "ull") r with Some q => Some (JNull, q) | None => None end
          else if (c =? 116)%N then match take (u "rue") r with Some q => Some (JBool true, q) | None => None end
          else if (c =? 102)%N then match take (u "alse") r with Some q => Some (JBool false, q) | None => None end
          else read_int t
      end
  end
with read_items (fuel : nat) (t : text) : option (list json * text) :=
  match fuel with
  | O => None
  | S fuel' =>
      match read_value fuel' t with
      | None => None
      | Some (v, q) =>
          match skip q with
          | 93%N :: q' => Some ([v], q')
          | 44%N :: q' => match read_items fuel' (skip q') with Some (l, q'') => Some (v :: l, q'') | None => None end
          | _ => None
          end
      end
  end
with read_members (fuel : nat) (t : text) : option (list (text * json) * text) :=
  match fuel with
  | O => None
  | S fuel' =>
      match t with
      | 34%N :: r =>
          match read_string (List.length t) r with
          | None => None
          | Some (k, q) =>
              match skip q with
              | 58%N :: q1 =>
                  match read_value fuel' (skip q1) with
                  | None => None
                  | Some (v, q2) =>
                      match skip q2 with
                      | 125%N :: q3 => Some ([(k, v)], q3)
                      | 44%N :: q3 => match read_members fuel' (skip q3) with
                                      | Some (l, q4) => Some ((k, v) :: l, q4)
                                      | None => None
                                      end
                      | _ => None
                      end
                  end
              | _ => None
              end
          end
      | _ => None
      end
  end.
(** JSONDecoder.decode; a leading byte order mark is refused (json.loads). *)
Definition read_text (t : text) : option json :=
  match t with
  | 65279%N :: _ => None
  | _ =>
      match read_value (S (List.length t)) (skip t) with
      | Some (v, q) => match skip q with [] => Some v | _ :: _ => None end
      | None => None
      end
  end.
(** bytes.decode("utf-8"): the text whose encoding these bytes are. *)
Definition decode_strict (b : bytes) : option text :=
  let t := utf8_decode b in
  match encode t with Some b' => if text_eqb b b' then Some t else None | None => None end.
(** json.loads(b.decode("utf-8")), cache.py:548; [None]: it raises. *)
Definition json_loads (b : bytes) : option json :=
  match decode_strict b with Some t => read_text t | None => None end.
