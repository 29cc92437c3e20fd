(** Vocabulary for the texts (C84, C85): what number a text denotes.  Nothing
    here is taken from the model. *)
From Verif Require Import Base.
From Coq Require Import String Ascii.
Open Scope string_scope.
Open Scope Z_scope.

(** The value of a digit character, in any base up to 16. *)
Definition digit_value (c : ascii) : option Z :=
  match c with
  | "0"%char => Some 0 | "1"%char => Some 1 | "2"%char => Some 2 | "3"%char => Some 3
  | "4"%char => Some 4 | "5"%char => Some 5 | "6"%char => Some 6 | "7"%char => Some 7
  | "8"%char => Some 8 | "9"%char => Some 9
  | "a"%char | "A"%char => Some 10 | "b"%char | "B"%char => Some 11 | "c"%char | "C"%char => Some 12
  | "d"%char | "D"%char => Some 13 | "e"%char | "E"%char => Some 14 | "f"%char | "F"%char => Some 15
  | _ => None
  end.

(** Positional notation, read from the left. *)
Fixpoint number_from (base acc : Z) (s : string) : option Z :=
  match s with
  | "" => Some acc
  | String c s' =>
      match digit_value c with
      | Some d => if d <? base then number_from base (acc * base + d) s' else None
      | None => None
      end
  end.
Definition number (base : Z) (s : string) : option Z :=
  match s with "" => None | _ => number_from base 0 s end.

(** No superfluous zero in front. *)
Definition tidy (s : string) : Prop := s = "0" \/ exists c s', s = String c s' /\ c <> "0"%char.

(** [s] is how a number [v] is written in base [base]. *)
Definition writes_as (base v : Z) (s : string) : Prop := number base s = Some v /\ tidy s.

(** [s] is how the range [lo..=hi] is written; a list of ranges. *)
Definition writes_range (lo hi : Z) (s : string) : Prop :=
  exists l h, writes_as 10 lo l /\ writes_as 10 hi h /\ s = l ++ "..=" ++ h.
Fixpoint writes_ranges (l : list (Z * Z)) (s : string) : Prop :=
  match l with
  | [] => s = ""
  | [r] => writes_range (fst r) (snd r) s
  | r :: l' => exists s1 s2, writes_range (fst r) (snd r) s1 /\ writes_ranges l' s2 /\ s = s1 ++ ", " ++ s2
  end.

Fixpoint every (P : ascii -> Prop) (s : string) : Prop :=
  match s with "" => True | String c s' => P c /\ every P s' end.
Definition lower_letter (c : ascii) : Prop := (97 <= nat_of_ascii c <= 122)%nat.
Definition upper_letter (c : ascii) : Prop := (65 <= nat_of_ascii c <= 90)%nat.
