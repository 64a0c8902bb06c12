(** Vocabulary for the file-system theorems. *)
From Coq Require Import String.
From Verif Require Import Base M_Main.
Local Open Scope list_scope.
(** Everything that exists lies in a folder. *)
Definition tree (f : fs) : Prop := forall p name n, f (p ++ [name]) = Some n -> f p = Some Folder.
(** [q] is [p] or lies inside it. *)
Definition inside (p q : path) : Prop := exists s, q = p ++ s.
(** A name that is neither empty nor "." nor "..". *)
Definition ordinary (name : string) : Prop := name <> ""%string /\ name <> "."%string /\ name <> ".."%string.
