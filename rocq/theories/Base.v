(** Shared vocabulary of the model: results with an explicit panic outcome,
    byte slices, and the two splitting primitives of the external crate
    [heterob] (bit fields from the least significant bit, little-endian
    integers and byte arrays from a slice). No proofs in this file. *)

From Coq Require Export NArith List Bool.
Export ListNotations.
Global Open Scope N_scope.

(** ** Results

    Rust [Result<A, E>] plus a third outcome for [unreachable!()], slice index
    out of range and (debug-build) arithmetic overflow. An infallible Rust
    function that contains such a path is modelled as polymorphic in [E]. *)
Inductive res (E A : Type) : Type :=
| Ok (a : A)
| Err (e : E)
| Panic.
Arguments Ok {E A} a.
Arguments Err {E A} e.
Arguments Panic {E A}.

Definition bind {E A B} (r : res E A) (k : A -> res E B) : res E B :=
  match r with
  | Ok a => k a
  | Err e => Err e
  | Panic => Panic
  end.
Notation "x <- e ;; k" := (bind e (fun x => k))
  (at level 61, e at next level, right associativity).
Notation "' pat <- e ;; k" := (bind e (fun x => match x with pat => k end))
  (at level 61, pat pattern, e at next level, right associativity).

(** Rust [Option::ok_or] / [Result::map_err] on an optional value. *)
Definition ok_or {E A} (o : option A) (e : E) : res E A :=
  match o with Some a => Ok a | None => Err e end.

(** Indexing and slicing that panics when out of range. *)
Definition or_panic {E A} (o : option A) : res E A :=
  match o with Some a => Ok a | None => Panic end.

(** Rust [Result::map_err]. *)
Definition map_err {E F A} (f : E -> F) (r : res E A) : res F A :=
  match r with Ok a => Ok a | Err e => Err (f e) | Panic => Panic end.

Definition map_ok {E A B} (f : A -> B) (r : res E A) : res E B :=
  match r with Ok a => Ok (f a) | Err e => Err e | Panic => Panic end.

(** Rust [Result::ok]; a panic stays a panic. *)
Definition to_opt {E F A} (r : res E A) : res F (option A) :=
  match r with Ok a => Ok (Some a) | Err _ => Ok None | Panic => Panic end.

(** ** Byte slices: a list of numbers (each below 256 in a real slice). *)
Definition len {A} (s : list A) : N := N.of_nat (length s).
Definition take {A} (n : N) (s : list A) : list A := firstn (N.to_nat n) s.
Definition drop {A} (n : N) (s : list A) : list A := skipn (N.to_nat n) s.

(** Rust [s.get(a..b)], [s.get(a..)] and [s.get(i)]. *)
Definition get_range {A} (a b : N) (s : list A) : option (list A) :=
  if (a <=? b) && (b <=? len s) then Some (take (b - a) (drop a s)) else None.
Definition get_from {A} (a : N) (s : list A) : option (list A) :=
  if a <=? len s then Some (drop a s) else None.
Definition get {A} (i : N) (s : list A) : option A := nth_error s (N.to_nat i).

(** Rust [split_at] without the panic check. *)
Definition split_at {A} (n : N) (s : list A) : list A * list A := (take n s, drop n s).

(** ** Bit fields: [heterob] [P{n}::<_, w0, w1, ...>(x)] read into [Lsb((...))].

    The result is the tuple of consecutive fields of widths [w0], [w1], ...
    starting at the least significant bit. *)
Fixpoint tup (A : Type) (ws : list N) : Type :=
  match ws with
  | [] => A
  | _ :: r => tup (A * N) r
  end.
Fixpoint lsb_go {A} (acc : A) (ws : list N) (x : N) : tup A ws :=
  match ws return tup A ws with
  | [] => acc
  | w :: r => lsb_go (acc, x mod 2 ^ w) r (x / 2 ^ w)
  end.
Definition tupN (ws : list N) : Type :=
  match ws with [] => unit | _ :: r => tup N r end.
Definition lsb (ws : list N) (x : N) : tupN ws :=
  match ws return tupN ws with
  | [] => tt
  | w :: r => lsb_go (x mod 2 ^ w) r (x / 2 ^ w)
  end.

(** A one-bit field read at type [bool], and [bool as uN]. *)
Definition tobool (x : N) : bool := negb (x =? 0).
Definition b2n (b : bool) : N := if b then 1 else 0.

(** Truncating casts and shifts at a fixed width. *)
Definition as_u8 (x : N) : N := x mod 256.
Definition as_u16 (x : N) : N := x mod 65536.
Definition as_u32 (x : N) : N := x mod 4294967296.
Definition as_u64 (x : N) : N := x mod 18446744073709551616.

(** ** Byte splitting: [heterob] [P{n}(bytes).into()] read into [Le((...))].

    [U8], [U16], [U32], [U64] are little-endian integers; [Arr n] is a byte
    array of length [n] kept as is. *)
Fixpoint le (bs : list N) : N :=
  match bs with
  | [] => 0
  | b :: r => b + 256 * le r
  end.
(** [to_le_bytes] at [n] bytes. *)
Fixpoint to_le (n : nat) (x : N) : list N :=
  match n with
  | O => []
  | S k => x mod 256 :: to_le k (x / 256)
  end.

Inductive fld := U8 | U16 | U32 | U64 | Arr (n : N).
Definition fty (f : fld) : Type := match f with Arr _ => list N | _ => N end.
Definition fsize (f : fld) : N :=
  match f with U8 => 1 | U16 => 2 | U32 => 4 | U64 => 8 | Arr n => n end.
Definition fread (f : fld) (s : list N) : fty f :=
  match f return fty f with
  | U8 => le (take 1 s)
  | U16 => le (take 2 s)
  | U32 => le (take 4 s)
  | U64 => le (take 8 s)
  | Arr n => take n s
  end.
Fixpoint size (fs : list fld) : N :=
  match fs with
  | [] => 0
  | f :: r => fsize f + size r
  end.
Fixpoint tupf (A : Type) (fs : list fld) : Type :=
  match fs with
  | [] => A
  | f :: r => tupf (A * fty f) r
  end.
Fixpoint split_go {A} (acc : A) (fs : list fld) (s : list N) : tupf A fs :=
  match fs return tupf A fs with
  | [] => acc
  | f :: r => split_go (acc, fread f s) r (drop (fsize f) s)
  end.
Definition tupF (fs : list fld) : Type :=
  match fs with [] => unit | f :: r => tupf (fty f) r end.
Definition split_le (fs : list fld) (s : list N) : tupF fs :=
  match fs return tupF fs with
  | [] => tt
  | f :: r => split_go (fread f s) r (drop (fsize f) s)
  end.
(** [P{n}(slice).try_into() -> Seq { head: Le(..), tail }]; [None] exactly when
    the slice is shorter than the fields. *)
Definition seq (fs : list fld) (s : list N) : option (tupF fs * list N) :=
  if size fs <=? len s then Some (split_le fs s, drop (size fs) s) else None.
