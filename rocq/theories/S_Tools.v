(** Specification vocabulary: calendar of a non-leap year. *)
From Verif Require Import Base.

Definition days_in_month : list Z := [31; 28; 31; 30; 31; 30; 31; 31; 30; 31; 30; 31]%Z.
