(** Transcription of the writing and waiting parts of the cache lock, /repo/tn/cache.py.
    Model only. *)
From Coq Require Import List NArith ZArith QArith Bool Arith Qminmax.
From Coq Require Import Floats.SpecFloat.
From Verif Require Import Text CacheModel.
Import ListNotations.
Local Open Scope list_scope.

(** ** One open file: its bytes; the descriptor's offset is passed along. *)
(** What os.write(fd, b) makes of the file [c] at offset [pos]. *)
Definition overwrite (c : bytes) (pos : nat) (b : bytes) : bytes :=
  firstn pos c ++ repeat 0%N (pos - List.length c) ++ b ++ skipn (pos + List.length b) c.
(** Answers of os.write: an exception, or the number of bytes. *)
Inductive answer := Raised | Wrote (k : Z).
Inductive written := Complete | ShortWrite | WriteError | InWrite.
(** _write_all, cache.py:228-234, on the answers [l]; [InWrite]: the next answer has
    not come.  ShortWrite is the OSError of line 233. *)
Fixpoint write_all (l : list answer) (data : bytes) (off pos : nat) (c : bytes) : written * bytes :=
  if off <? List.length data then
    match l with
    | [] => (InWrite, c)
    | Raised :: _ => (WriteError, c)
    | Wrote k :: r =>
        let c' := overwrite c pos (firstn (Z.to_nat k) (skipn off data)) in
        if (k <=? 0)%Z then (ShortWrite, c')
        else write_all r data (off + Z.to_nat k) (pos + Z.to_nat k) c'
    end
  else (Complete, c).
(** The part of _open_lock_anchor that touches the content, cache.py:620-625. *)
Definition open_anchor (l : list answer) (c : bytes) : written * bytes :=
  match c with [] => write_all l [0%N] 0 0 c | _ :: _ => (Complete, c) end.
(** _OWNER_PAYLOAD_MAX_BYTES, cache.py:38 *)
Definition owner_max : Z := 65536.
(** os.ftruncate(fd, 1) *)
Definition truncate1 (c : bytes) : bytes := match c with [] => [0%N] | x :: _ => [x] end.
(** _write_owner_payload, cache.py:650-658; [None]: CacheError, too long. *)
Definition write_owner (l : list answer) (encoded : bytes) (c : bytes) : option (written * bytes) :=
  if (owner_max <? size_of encoded)%Z then None else Some (write_all l encoded 0 1 (truncate1 c)).
(** json.loads(bytes.decode("utf-8")): a value, an exception of those caught
    (UnicodeError, ValueError, TypeError), or another one (RecursionError). *)
Inductive loaded := Value (j : json) | Caught | Uncaught.
Inductive diagnostic := DEmpty | DTooLarge (n : Z) | DPartial | DNotDict | DPayload (l : list (text * json)) | DUnreadable.
(** _read_owner_diagnostic, cache.py:630-648. [size]: what fstat answers; [got]: what
    os.read answers; [None]: OSError.  Result [None]: an exception escapes. *)
Definition owner_diagnostic (loads : bytes -> loaded) (size : option nat) (got : option bytes) : option diagnostic :=
  match size with
  | None => Some DUnreadable
  | Some n =>
      let payload := Z.max 0 (Z.of_nat n - 1) in
      if (payload =? 0)%Z then Some DEmpty
      else if (owner_max <? payload)%Z then Some (DTooLarge payload)
      else match got with
           | None => Some DUnreadable
           | Some b =>
               if negb (size_of b =? payload)%Z then Some DPartial
               else match loads b with
                    | Value (JObj l) => Some (DPayload l)
                    | Value _ => Some DNotDict
                    | Caught => Some DUnreadable
                    | Uncaught => None
                    end
           end
  end.

(** ** Timeouts. *)
(** math.isfinite *)
Definition isfinite (f : spec_float) : bool := match f with S754_zero _ | S754_finite _ _ _ => true | _ => false end.
(** f < 0 *)
Definition negative (f : spec_float) : bool := match f with S754_finite s _ _ => s | S754_infinity s => s | _ => false end.
(** float(DEFAULT_LOCK_TIMEOUT_SECONDS) = 600.0, cache.py:36 *)
Definition default_timeout : spec_float := S754_finite false 5277655813324800 (-43).
(** _configured_lock_timeout, cache.py:151-161; [parse]: float(text). None: ValueError. *)
Definition configured_timeout (parse : text -> option spec_float) (var : option text) : option spec_float :=
  match var with
  | None => Some default_timeout
  | Some v => match parse v with
              | None => None
              | Some t => if negb (isfinite t) || negative t then None else Some t
              end
  end.
(** The argument of lock: None, or a value with what float() makes of it. *)
Inductive timeout_arg := NoTimeout | Timeout (f : option spec_float).
(** lock, cache.py:661-664. None: an exception. *)
Definition checked_timeout (parse : text -> option spec_float) (var : option text) (a : timeout_arg) : option spec_float :=
  match (match a with NoTimeout => configured_timeout parse var | Timeout f => f end) with
  | None => None
  | Some t => if negb (isfinite t) || negative t then None else Some t
  end.
(** The number a finite float stands for. *)
Definition value (f : spec_float) : Q :=
  match f with
  | S754_finite s m e =>
      let z := if s then Zneg m else Zpos m in
      match e with
      | Z0 => inject_Z z
      | Zpos p => inject_Z (z * 2 ^ Zpos p)
      | Zneg p => z # (2 ^ p)
      end
  | _ => 0
  end.

(** ** The wait loop of lock, cache.py:665-680. *)
(** One round: what the attempt to lock gives, and what time.monotonic() gives if asked
    (line 676, then line 680). *)
Inductive attempt := Got | Busy | Broken.
Record round := Round { tried : attempt; now1 : Q; now2 : Q }.
Inductive outcome := Acquired | LockError | TimedOut (now : Q) | Waiting.
Section Wait.
Variable rnd : Q -> Q.                   (* the rounding of float addition and subtraction *)
(** min(0.05, max(0.0, deadline - now)) *)
Definition nap (deadline now : Q) : Q := Qmin (1 # 20) (Qmax 0 (rnd (deadline - now))).
(** The outcome and the sleeps. [Waiting]: the rounds are over and it still waits. *)
Fixpoint wait (deadline : Q) (l : list round) : outcome * list Q :=
  match l with
  | [] => (Waiting, [])
  | r :: rest =>
      match tried r with
      | Got => (Acquired, [])
      | Broken => (LockError, [])
      | Busy =>
          if Qle_bool deadline (now1 r) then (TimedOut (now1 r), [])
          else let d := nap deadline (now2 r) in
               let '(o, ds) := wait deadline rest in (o, d :: ds)
      end
  end.
(** From time.monotonic() = [start], cache.py:666. *)
Definition lock_wait (start : Q) (timeout : spec_float) (l : list round) : outcome * list Q :=
  wait (rnd (start + value timeout)) l.
End Wait.
