(** Vocabulary for the statements about exported files: how a reader understands a text. *)
From Coq Require Import String Ascii.
From Coq Require Import List ZArith QArith Bool Reals.
From Verif Require Import Lib Calendar_Model.
Import ListNotations.
Open Scope Z_scope.

(** * Reading numbers *)

Definition is_digit (c : ascii) : bool := let n := nat_of_ascii c in (48 <=? n)%nat && (n <=? 57)%nat.
Definition digit_value (c : ascii) : Z := Z.of_nat (nat_of_ascii c) - 48.
(** The longest prefix of digits, and the rest. *)
Fixpoint span_digits (l : list ascii) : list ascii * list ascii :=
  match l with
  | c :: r => if is_digit c then let (a, b) := span_digits r in (c :: a, b) else ([], l)
  | [] => ([], [])
  end.
Definition number (l : list ascii) : Z := fold_left (fun a c => 10 * a + digit_value c) l 0.
(** A natural number at the beginning of a text: its digits and the rest. *)
Definition read_nat (l : list ascii) : option (list ascii * list ascii) :=
  match span_digits l with ([], _) => None | (d, r) => Some (d, r) end.
Definition read_char (c : ascii) (l : list ascii) : option (list ascii) :=
  match l with x :: r => if Ascii.eqb x c then Some r else None | [] => None end.
(** A decimal number "12.34" that takes up all of a text: digits after the point are tenths,
    hundredths, and so on. *)
Definition read_decimal (l : list ascii) : option Q :=
  match read_nat l with
  | Some (i, r) =>
      match read_char "."%char r with
      | Some r => match read_nat r with
                  | Some (f, []) => Some (inject_Z (number i) + inject_Z (number f) / inject_Z (10 ^ Z.of_nat (length f)))%Q
                  | _ => None
                  end
      | None => None
      end
  | None => None
  end.

(** * Reading times *)

(** [t] microseconds after 1970-01-01 are the date, hour and minute given, and [sec] seconds. *)
Definition is_time (t : Q) (date : Z * Z * Z) (h mi : Z) (sec : Q) : Prop :=
  exists day, civil day = date /\ (t == (inject_Z (day * 86400 + h * 3600 + mi * 60) + sec) * inject_Z 1000000)%Q.
(** "YYYY-MM-DD hh:mm:ss.ffff" *)
Definition read_stamp (l : list ascii) : option ((Z * Z * Z) * Z * Z * Q) :=
  let num l := match read_nat l with Some (d, r) => Some (number d, r) | None => None end in
  let next {A} (o : option A) (f : A -> option ((Z * Z * Z) * Z * Z * Q)) := match o with Some a => f a | None => None end in
  next (num l) (fun yr => next (read_char "-"%char (snd yr)) (fun l =>
  next (num l) (fun mo => next (read_char "-"%char (snd mo)) (fun l =>
  next (num l) (fun d => next (read_char " "%char (snd d)) (fun l =>
  next (num l) (fun h => next (read_char ":"%char (snd h)) (fun l =>
  next (num l) (fun mi => next (read_char ":"%char (snd mi)) (fun l =>
  next (read_decimal l) (fun s => Some ((fst yr, fst mo, fst d), fst h, fst mi, s)))))))))))).
Definition stamp_denotes (l : list ascii) (t : Q) : Prop :=
  exists date h mi sec, read_stamp l = Some (date, h, mi, sec) /\ is_time t date h mi sec.

(** * Reading lines of words *)

(** The words of a line: the maximal parts without blanks. *)
Fixpoint words_from (w : list ascii) (l : list ascii) : list (list ascii) :=
  match l with
  | [] => match w with [] => [] | _ => [rev w] end
  | c :: r => if Ascii.eqb c " "%char then match w with [] => words_from [] r | _ => rev w :: words_from [] r end
              else words_from (c :: w) r
  end.
Definition words (l : list ascii) : list (list ascii) := words_from [] l.
Definition blank_free (l : list ascii) : Prop := Forall (fun c => c <> " "%char) l.
(** The words "YYYYMMDD", "hhmm" and "ss.ffff" of a NonLinLoc phase file. *)
Definition nlloc_denotes (date hm sec : list ascii) (t : Q) : Prop :=
  exists y mo d h mi s, length y = 4%nat /\ length mo = 2%nat /\ length d = 2%nat /\ length h = 2%nat /\ length mi = 2%nat
  /\ Forall (fun c => is_digit c = true) (y ++ mo ++ d ++ h ++ mi)
  /\ date = y ++ mo ++ d /\ hm = h ++ mi /\ read_decimal sec = Some s
  /\ is_time t (number y, number mo, number d) (number h) (number mi) s.

(** The uncertainty of a pick time: the one given, or the mean of the uncertainties on the two sides. *)
Definition has_uncertainty (unc upper lower : option R) (e : R) : Prop :=
  unc = Some e \/ (unc = None /\ exists a b, upper = Some a /\ lower = Some b /\ e = ((a + b) / 2)%R).

(** A text before another in the order of a dictionary. *)
Inductive text_le : list ascii -> list ascii -> Prop :=
| le_nil b : text_le [] b
| le_lt x y a b : (nat_of_ascii x < nat_of_ascii y)%nat -> text_le (x :: a) (y :: b)
| le_cons x a b : text_le a b -> text_le (x :: a) (x :: b).

(** The fraction of a second is zero or at least a tenth. *)
Definition tenths (t : Z) : Prop := t mod 1000000 = 0 \/ 100000 <= t mod 1000000.
