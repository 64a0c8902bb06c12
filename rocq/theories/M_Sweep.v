(** Model of /repo/pylesa/parametric_analysis.py, the name parsing of io/outputs.py and the
    order strings of io/read_excel.py. *)
From Coq Require Import String Ascii Decimal DecimalNat DecimalN NArith.
From Verif Require Import Base.
Open Scope string_scope.
Local Open Scope list_scope.

(** ** Python strings: characters are code points below 256. *)
(** A Python string, io/read_excel.py:100-127 and parametric_analysis.py:53-58 *)
Definition chars := list ascii.
(** The number of a character, io/read_excel.py:100-127 *)
Definition code (c : ascii) : N := N_of_ascii c.
(** io/read_excel.py:100-127, parametric_analysis.py:53-58: str.isspace for one character *)
Definition is_space (c : ascii) : bool :=
  let n := code c in
  ((9 <=? n) && (n <=? 13) || (28 <=? n) && (n <=? 32) || (n =? 133) || (n =? 160))%N%bool.
(** 0 to 9, io/read_excel.py:100-127 *)
Definition is_decimal (c : ascii) : bool := ((48 <=? code c) && (code c <=? 57))%N%bool.
(** io/read_excel.py:100-127, parametric_analysis.py:53-58: str.isdigit for one character: also the superscripts one, two and three *)
Definition is_digit (c : ascii) : bool :=
  (is_decimal c || (code c =? 178) || (code c =? 179) || (code c =? 185))%N%bool.
(** [int] of one digit, io/read_excel.py:100-127 *)
Definition digit_value (c : ascii) : Z := (Z.of_N (code c) - 48)%Z.
(** io/read_excel.py:100-127, parametric_analysis.py:53-58: str.isdigit *)
Definition isdigit (s : chars) : bool := match s with [] => false | _ => forallb is_digit s end.
(** io/read_excel.py:100-127, parametric_analysis.py:53-58: str.replace of one character by another *)
Definition replace (a b : ascii) (s : chars) : chars := map (fun c => if Ascii.eqb c a then b else c) s.
(** io/read_excel.py:100-127, parametric_analysis.py:53-58: str.split() on runs of white space; [cur] is the current word, reversed *)
Fixpoint split_ws (cur : chars) (s : chars) : list chars :=
  match s with
  | [] => match cur with [] => [] | _ => [rev cur] end
  | c :: s' => if is_space c then match cur with [] => split_ws [] s' | _ => rev cur :: split_ws [] s' end
               else split_ws (c :: cur) s'
  end.
(** io/read_excel.py:100-127, parametric_analysis.py:53-58: str.split(sep) for a one-character separator *)
Fixpoint split_on (sep : ascii) (s : chars) : list chars :=
  match s with
  | [] => [[]]
  | c :: s' => if Ascii.eqb c sep then [] :: split_on sep s'
               else match split_on sep s' with w :: ws => (c :: w) :: ws | [] => [[c]] end
  end.
(** io/read_excel.py:100-127, parametric_analysis.py:53-58: int(str): white space around, one sign, decimal digits with single underscores between
    them.  The length limit of 4300 digits is not modelled. *)
Fixpoint lstrip (s : chars) : chars :=
  match s with c :: s' => if is_space c then lstrip s' else s | [] => [] end.
(** [str.strip], inside [int] at io/read_excel.py:100-127 *)
Definition strip (s : chars) : chars := rev (lstrip (rev (lstrip s))).
(** [int] of digits, io/read_excel.py:100-127 *)
Fixpoint int_digits (s : chars) (acc : Z) (after_digit : bool) : res Z :=
  match s with
  | [] => if after_digit then Ok acc else Err ValueError
  | c :: s' => if is_decimal c then int_digits s' (10 * acc + digit_value c)%Z true
               else if Ascii.eqb c "_" && after_digit then int_digits s' acc false
               else Err ValueError
  end.
(** [int(text)], io/read_excel.py:100-127 *)
Definition int_of (s : chars) : res Z :=
  match strip s with
  | c :: s' => if Ascii.eqb c "+" then int_digits s' 0%Z false
               else if Ascii.eqb c "-" then z <- int_digits s' 0%Z false ;; Ok (- z)%Z
               else int_digits (c :: s') 0%Z false
  | [] => Err ValueError
  end.
(** io/read_excel.py:100-127, parametric_analysis.py:53-58: str(int) *)
Fixpoint uint_chars (u : Decimal.uint) : chars :=
  match u with
  | Nil => [] | D0 u => "0"%char :: uint_chars u | D1 u => "1"%char :: uint_chars u
  | D2 u => "2"%char :: uint_chars u | D3 u => "3"%char :: uint_chars u | D4 u => "4"%char :: uint_chars u
  | D5 u => "5"%char :: uint_chars u | D6 u => "6"%char :: uint_chars u | D7 u => "7"%char :: uint_chars u
  | D8 u => "8"%char :: uint_chars u | D9 u => "9"%char :: uint_chars u
  end.
(** [str(size)], parametric_analysis.py:53-58 and io/outputs.py:1633 *)
Definition str_int (z : Z) : chars :=
  if (z <? 0)%Z then "-"%char :: uint_chars (N.to_uint (Z.to_N (- z))) else uint_chars (N.to_uint (Z.to_N z)).

(** ** Sweep, parametric_analysis.py *)
Record sweep := { hp_min : Z; hp_max : Z; hp_step : Z; ts_min : Z; ts_max : Z; ts_step : Z }.
(** parametric_analysis.py:29-35 and outputs.py:1609-1614.  The workbook cells are taken to
    hold integers; range() rejects anything else when min and max differ. *)
Definition hp_sizes (p : sweep) : res (list Z) :=
  if (hp_min p =? hp_max p)%Z then Ok [hp_min p]
  else zrange_step (hp_min p) (hp_max p + hp_step p) (hp_step p).
(** parametric_analysis.py:38-44 and outputs.py:1616-1622 *)
Definition ts_sizes (p : sweep) : res (list Z) :=
  if (ts_min p =? ts_max p)%Z then Ok [ts_min p]
  else zrange_step (ts_min p) (ts_max p + hp_step p) (ts_step p).
(** parametric_analysis.py:47-51 and outputs.py:1623-1627 *)
Definition combos (p : sweep) : res (list (Z * Z)) :=
  hs <- hp_sizes p ;; ts <- ts_sizes p ;;
  Ok (flat_map (fun h => map (fun t => (h, t)) ts) hs).
(** parametric_analysis.py:54-58 and outputs.py:1633 *)
Definition chars_of := list_ascii_of_string.
(** parametric_analysis.py:53-58 = io/outputs.py:1633 *)
Definition folder_text (hp ts : chars) : chars := chars_of "hp_" ++ hp ++ chars_of "_ts_" ++ ts.
(** parametric_analysis.py:53-58 = io/outputs.py:1633 *)
Definition folder_name (c : Z * Z) : chars := folder_text (str_int (fst c)) (str_int (snd c)).
(** parametric_analysis.py:53-58 *)
Definition folder_names (p : sweep) : res (list chars) := cs <- combos p ;; Ok (map folder_name cs).
(** The sizes the KPI stage reads from a name, outputs.py:1334-1336, 1352-1354, 1397-1399 *)
Definition numbers_in (name : chars) : res (list Z) :=
  mapM int_of (filter isdigit (split_ws [] (replace "_" " " name))).
(** [t[0]] and [t[1]], outputs.py:1355, 1337, 1400-1401 *)
Definition size_at (name : chars) (i : nat) : res Z := t <- numbers_in name ;; pidx t i.

(** ** Inputs of one combination, parametric_analysis.py:69-128 *)
Section Pickles.
Variable rest : Type.
(** parametric_analysis.py:75-123: The part of the pickled dictionary that is touched; [c_rest] is everything else.
    Data frame columns are lists, row label 0 first. *)
Record inputs := {
  hp_capacity : list Q; duty1 : list Q; duty2 : list Q; duty3 : list Q; duty4 : list Q;
  ts_capacity : list Q; c_rest : rest }.
(** parametric_analysis.py:82, 121: df.loc[0, column] = v *)
Definition set_row0 (v : Q) (col : list Q) : list Q := match col with [] => [v] | _ :: l => v :: l end.
(** parametric_analysis.py:126-128: the files of the inputs folder: one pickle per name *)
Definition files := chars -> option inputs.
(** parametric_analysis.py:126-128 *)
Definition write_file (name : chars) (x : inputs) (f : files) : files :=
  fun n => if list_eq_dec ascii_dec n name then Some x else f n.
(** lines parametric_analysis.py:78-123 *)
Definition scale_inputs (c : Z * Z) (x : inputs) : res inputs :=
  match hp_capacity x with
  | [] => Err KeyError
  | capacity :: _ =>
      let ratio := if qeq capacity 0 then 0 else round2 (inject_Z (fst c) / capacity) in
      Ok {| hp_capacity := set_row0 (inject_Z (fst c)) (hp_capacity x);
            duty1 := map (fun d => d * ratio) (duty1 x); duty2 := map (fun d => d * ratio) (duty2 x);
            duty3 := map (fun d => d * ratio) (duty3 x); duty4 := map (fun d => d * ratio) (duty4 x);
            ts_capacity := set_row0 (inject_Z (snd c)) (ts_capacity x); c_rest := c_rest x |}
  end.
(** parametric_analysis.py:75 *)
Definition inputs_pkl : chars := chars_of "inputs.pkl".
(** parametric_analysis.py:126 *)
Definition pkl_name (folder : chars) : chars := folder ++ chars_of ".pkl".
(** one turn of the loop, lines parametric_analysis.py:72-128 *)
Definition create_pickle (f : files) (c : Z * Z) : res files :=
  match f inputs_pkl with
  | None => Err FileNotFoundError
  | Some x => y <- scale_inputs c x ;; Ok (write_file (pkl_name (folder_name c)) y f)
  end.
(** parametric_analysis.py:69-128 *)
Definition create_pickles (f : files) (cs : list (Z * Z)) : res files := foldM create_pickle cs f.
End Pickles.

(** ** Order strings, read_excel.py:118-125 *)
Inductive cell := Text (s : chars) | Number (q : Q).
(** io/read_excel.py:100-127 *)
Definition read_order (c : cell) : res (list Z) :=
  match c with
  | Text s => mapM int_of (split_on "," s)
  | Number _ => Err AttributeError
  end.
