(** Vocabulary for statements about state file lines. *)
From Verif Require Import Base LineModel.

(** A text that occupies one line of a file and is a C string. *)
Definition line_text (s : list Z) : Prop := Forall (fun c => c <> 10 /\ c <> 0) s.

(** A line of a file: the text and a line feed. *)
Definition line (s : list Z) : list Z := s ++ [10].

(** 32-bit ranges of the conversions %i and %u. *)
Definition in_i32 (v : Z) : Prop := - 2 ^ 31 <= v < 2 ^ 31.
Definition in_u32 (v : Z) : Prop := 0 <= v < 2 ^ 32.
Definition in_i64 (v : Z) : Prop := - 2 ^ 63 <= v < 2 ^ 63.
Definition conv_range (k : conv) (v : Z) : Prop :=
  match k with CI => in_i32 v | CU => in_u32 v end.
