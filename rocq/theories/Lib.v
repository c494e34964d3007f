(** Shared vocabulary of the models: outcomes of Python calls, bounds-checked arrays, loops. *)
From Coq Require Import List ZArith Lia Bool.
Import ListNotations.
Open Scope Z_scope.

(** Exceptions raised by the modelled Python code. *)
Inductive exn : Set :=
| ValueError | IndexError | KeyError | TypeError | RuntimeError | AttributeError | NameError
| ZeroDivisionError | AssertionError | NotImplementedErr
| DataAvailabilityException | DataGapException | ChannelNameException | NyquistException
| NoScanMseedData | NoTriggerFilesFound | StationFileHeader | LUTPhases | NoOnsetPeak
| StructError | VelocityModelHeader | FileNotFoundErr | NLLocError
| TimeSpan | ArchiveEmpty | PickOrder | PeakToTrough | MinOnsetValue | BadUpfactor | ResponseNotFound | ResponseRemoval
| ArchiveFormat | ArchivePathStructure | ThresholdMethod.

(** Outcome of a call: a value, a Python exception, or undefined behaviour of the C library
    (out-of-bounds access, signed overflow). *)
Inductive outcome (A : Type) : Type :=
| Ret (a : A)
| Raise (e : exn)
| Undef.
Arguments Ret {A} a.
Arguments Raise {A} e.
Arguments Undef {A}.

Definition bind {A B} (o : outcome A) (f : A -> outcome B) : outcome B :=
  match o with Ret a => f a | Raise e => Raise e | Undef => Undef end.

(** Bounds-checked read and write of a C array or numpy array (non-negative index). *)
Definition rd {A} (l : list A) (i : Z) : option A :=
  if i <? 0 then None else nth_error l (Z.to_nat i).

Fixpoint upd {A} (l : list A) (i : nat) (x : A) : option (list A) :=
  match l, i with
  | [], _ => None
  | _ :: t, O => Some (x :: t)
  | h :: t, S j => match upd t j x with Some t' => Some (h :: t') | None => None end
  end.

Definition wr {A} (l : list A) (i : Z) (x : A) : option (list A) :=
  if i <? 0 then None else upd l (Z.to_nat i) x.

(** [for (i = lo; i < hi; ++i) body], stopping at the first undefined operation. *)
Fixpoint loop {S} (n : nat) (i : Z) (body : Z -> S -> option S) (s : S) : option S :=
  match n with
  | O => Some s
  | Datatypes.S n' => match body i s with Some s' => loop n' (i + 1) body s' | None => None end
  end.
Definition for_ {S} (lo hi : Z) (body : Z -> S -> option S) (s : S) : option S :=
  loop (Z.to_nat (hi - lo)) lo body s.

(** The integers [lo, lo+1, ..., lo+n-1]. *)
Fixpoint zseq (lo : Z) (n : nat) : list Z :=
  match n with O => [] | S n' => lo :: zseq (lo + 1) n' end.
(** Python's [range(n)]. *)
Definition zrange (n : Z) : list Z := zseq 0 (Z.to_nat n).

(** C [int32_t] values; signed overflow is undefined behaviour. *)
Definition int32 (z : Z) : option Z :=
  if (-2147483648 <=? z) && (z <=? 2147483647) then Some z else None.
