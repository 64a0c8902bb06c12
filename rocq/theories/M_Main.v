(** Model of what /repo/pylesa/main.py does to the file system: main.py:56-70, io/paths.py,
    logging.py:30-45, io/read_excel.py:51-79 and 41-47, parametric_analysis.py:60-67 and
    125-128, controllers/fixed_order.py:160-164, io/outputs.py:58-136 and 1587-1601.

    Simplifications: resolved absolute paths without symbolic links, as lists of names; no
    permission or space errors; the data of a file is a function [content] of its path. *)
From Coq Require Import String Ascii.
From Verif Require Import Base.
Open Scope string_scope.
Local Open Scope list_scope.

(** [pathlib.Path] after resolve(), io/paths.py:7-34 *)
Definition path := list string.
(** A folder or a file, main.py:56-70 *)
Inductive node := Folder | File (data : string).
(** The file system, main.py:40-140 *)
Definition fs := path -> option node.
(** Equality of paths, main.py:57-70 *)
Definition path_eqb (p q : path) : bool := if list_eq_dec string_dec p q then true else false.
(** [p] is [t] or lies below it, main.py:61 *)
Fixpoint below (t p : path) : bool :=
  match t, p with
  | [], _ => true
  | a :: t', b :: p' => String.eqb a b && below t' p'
  | _ :: _, [] => false
  end.
(** Path.parent, main.py:70 *)
Definition parent (p : path) : path := removelast p.
(** Creating or replacing an entry, main.py:70 *)
Definition set (f : fs) (p : path) (n : node) : fs := fun q => if path_eqb q p then Some n else f q.
(** shutil.rmtree, main.py:61 *)
Definition remove_tree (f : fs) (t : path) : fs := fun q => if below t q then None else f q.
(** What is gone after the failing rmtree of dir/.., main.py:61 *)
Definition remove_contents (f : fs) (t : path) : fs := fun q => if below t q && negb (path_eqb q t) then None else f q.

(** main.py:70: A file or folder can be made at [p]. *)
Definition parent_ok (f : fs) (p : path) : res unit :=
  match f (parent p) with
  | Some Folder => Ok tt
  | Some (File _) => Err NotADirectoryError
  | None => Err FileNotFoundError
  end.
(** main.py:70, io/read_excel.py:65: Path.mkdir *)
Definition mkdir (f : fs) (p : path) : res fs :=
  match f p with
  | Some _ => Err FileExistsError
  | None => _ <- parent_ok f p ;; Ok (set f p Folder)
  end.
(** main.py:61, io/read_excel.py:67: shutil.rmtree *)
Definition rmtree (f : fs) (p : path) : res fs :=
  match f p with
  | Some Folder => Ok (remove_tree f p)
  | Some (File _) => Err NotADirectoryError
  | None => Err FileNotFoundError
  end.

(** main.py:57: PurePath.stem of a file name *)
Fixpoint rfind_dot (s : string) : option nat :=
  match s with
  | EmptyString => None
  | String c s' => match rfind_dot s' with
                   | Some i => Some (S i)
                   | None => if Ascii.eqb c "." then Some 0%nat else None
                   end
  end.
(** [xlsxpath.stem], main.py:57 *)
Definition stem (name : string) : string :=
  match rfind_dot name with
  | Some i => if Nat.ltb 0 i && Nat.ltb i (String.length name - 1) then String.substring 0 i name else name
  | None => name
  end.
(** main.py:57: PurePath / name, as the operating system reads the result *)
Definition join (p : path) (name : string) : path :=
  if String.eqb name "" || String.eqb name "." then p
  else if String.eqb name ".." then parent p
  else p ++ [name].

Section Run.
Variable content : path -> string.

(** What the rest of main does to files, main.py:72-140 *)
Inductive action :=
| Write (p : path)                 (* open(p, 'wb') and the like *)
| Recreate (p : path)              (* is_dir: rmtree and mkdir, otherwise mkdir *)
| Read (p : path)
| Compute (r : res unit).          (* anything without effect on files *)
(** One action, main.py:72-140 *)
Definition act (f : fs) (a : action) : fs * res unit :=
  match a with
  | Write p =>
      match f p with
      | Some Folder => (f, Err IsADirectoryError)
      | _ => match parent_ok f p with Ok _ => (set f p (File (content p)), Ok tt) | Err e => (f, Err e) end
      end
  | Recreate p =>
      let f1 := match f p with Some Folder => remove_tree f p | _ => f end in
      match mkdir f1 p with Ok f2 => (f2, Ok tt) | Err e => (f1, Err e) end
  | Read p =>
      match f p with
      | Some (File _) => (f, Ok tt)
      | Some Folder => (f, Err IsADirectoryError)
      | None => (f, Err FileNotFoundError)
      end
  | Compute r => (f, r)
  end.
(** The actions until the first exception, main.py:72-140 *)
Fixpoint exec (f : fs) (l : list action) : fs * res unit :=
  match l with
  | [] => (f, Ok tt)
  | a :: l' => match act f a with (f', Ok _) => exec f' l' | (f', Err e) => (f', Err e) end
  end.

(** main.py:56-70, followed by the actions [acts t] on the output folder [t].
    Path.stem of the root path is empty.  Deleting "dir/.." removes the contents of the
    parent, among them dir, so the final rmdir fails. *)
Definition output_folder (xlsx outdir : path) : path := join outdir (stem (last xlsx "")).
(** main.py:40-140 *)
Definition main (xlsx outdir : path) (overwrite : bool) (acts : list action) (f : fs) : fs * res unit :=
  match f xlsx, f outdir with
  | Some _, Some _ =>
      let t := output_folder xlsx outdir in
      let continue f1 := match mkdir f1 t with Ok f2 => exec f2 acts | Err e => (f1, Err e) end in
      match f t with
      | Some _ =>
          if overwrite then
            if String.eqb (stem (last xlsx "")) ".." then (remove_contents f t, Err FileNotFoundError)
            else match rmtree f t with Ok f1 => continue f1 | Err e => (f, Err e) end
          else (f, Err FileExistsError)
      | None => continue f
      end
  | _, _ => (f, Err FileNotFoundError)
  end.

(** The actions of a single-core run, in order.  A two-process run performs the plotting
    actions later, in another order.  [names] are the combinations, [periods] the plotted
    periods. *)
Variables (parse para : res unit) (solve plot : string -> res unit) (kpi : res unit).
(** The files written by io/outputs.py:58-88 for one period *)
Definition plot_files (period : string) : list string :=
  ["operation.png"; "electricity_demand_and_generation.png"; "heat_demand_and_heat_pump.png";
   "heatpump_cop_and_duty.png"; "thermal_storage.png"; "electrical_storage.png"; "grid.png"]
  ++ if String.eqb period "Year" || String.eqb period "User" then ["RES_bar_charts.png"] else [].
(** The files written by io/outputs.py:90-108 *)
Definition kpi_files (name : string) : list string :=
  ["KPI_economic_" ++ name ++ ".pkl"; "KPI_economic_" ++ name ++ ".csv"; "KPI_technical_" ++ name ++ ".pkl";
   "KPI_technical_" ++ name ++ ".csv"; "output_" ++ name ++ ".pkl"; "output_" ++ name ++ ".csv";
   "operating_cost.png"; "RES_self_consumption.png"; "heat_from_RES.png"; "HP_size_ratio.png"; "HP_utilisation.png";
   "capital_cost.png"; "levelised_cost_of_heat.png"; "cost_of_heat.png"]%string.
(** main.py:72-140 with io/read_excel.py:17-79, parametric_analysis.py:13-128 and io/outputs.py:58-108 *)
Definition script (xlsx t : path) (names periods : list string) : list action :=
  [Write (t ++ ["pylesa.log"]); Recreate (t ++ ["inputs"]); Read xlsx; Recreate (t ++ ["outputs"]); Compute parse;
   Write (t ++ ["inputs"; "inputs.pkl"]); Compute para]
  ++ map (fun n => Recreate (t ++ ["outputs"; n])) names
  ++ map (fun n => Write (t ++ ["inputs"; String.append n ".pkl"])) names
  ++ [Compute (match names with [] => Err IndexError | _ => Ok tt end)]
  ++ flat_map (fun n => [Compute (solve n); Write (t ++ ["outputs"; n; "outputs.pkl"]); Compute (plot n)]
       ++ flat_map (fun d => Recreate (t ++ ["outputs"; n; d]) :: map (fun x => Write (t ++ ["outputs"; n; d; x])) (plot_files d)) periods) names
  ++ Recreate (t ++ ["outputs"; "KPIs"]) :: Compute kpi :: map (fun x => Write (t ++ ["outputs"; "KPIs"; x])) (kpi_files (last t "")).
End Run.
