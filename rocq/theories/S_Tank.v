(** Specification vocabulary for the hot water tank. *)
From Coq Require Import Sorting.Sorted String.
From Verif Require Import Base M_FixedOrder M_Tank.

(** Hottest water on top. *)
Definition stratified (T : list Q) : Prop := StronglySorted (fun above below => below <= above) T.

(** A real tank: positive volume, at least two nodes, positive specific heats,
    non-negative correction factors. *)
Definition tank_ok (K : tank) : Prop :=
  0 < k_capacity K /\ (2 <= k_nodes K)%nat /\ 0 < k_width K /\ 0 < k_pi K /\ 0 <= k_Fi K /\ 0 <= k_Fe K /\
  (forall d c, k_cp K d = Some c -> 0 < c).
Definition sealed (K : tank) : Prop := k_openings K == 0 /\ k_bare K == 0 /\ k_insulated K == 0.

(** Heat content per kg node mass in degree: the sum of the node temperatures. *)
Definition content (T : list Q) : Q := fold_right Qplus 0 T.
Definition mean_temp (T : list Q) : Q := content T / inject_Z (Z.of_nat (length T)).

(** Standing loss of one node per degree (J per step) for a cylinder of outer radius w,
    inner radius 7w/8, insulation w/8 and height 5w/4:
    Fe Fi k pi (r1^2 + h (r1 + r2)) / (r2 - r1) = Fe Fi k pi w 199/8. *)
Definition UA (K : tank) (k : Q) : Q := k_Fe K * k_Fi K * k * k_pi K * k_width K * (199#8).

(** Heat of the connections (J per step), lines 381-414 with the constants evaluated. *)
Definition connections (K : tank) : Q :=
  (10125#10000) * k_pi K * (k_openings_d K * k_openings_d K) * k_openings K
  + 750 * k_bare_d K * k_bare K + 525 * k_insulated_d K * k_insulated K.

(** Change of the content caused by standing losses and connections in one step;
    [cps] are the specific heats of the nodes. *)
Fixpoint standing (K : tank) (k Ta mass : Q) (T cps : list Q) : Q :=
  match T, cps with
  | x :: T', c :: cps' =>
      (UA K k * (Ta - x) + k_Fe K * connections K) / (mass * c) + standing K k Ta mass T' cps'
  | _, _ => 0
  end.

(** No node above the bottom one is exactly at the source temperature. *)
Definition no_tie (source : Q) (T : list Q) : Prop := Forall (fun x => ~ x == source) (removelast T).

Definition ties (source : Q) (T : list Q) : nat :=
  length (filter (fun x => Qeq_bool x source) (removelast T)).

(** Water per node in kg, and the share of its excess over ambient a node loses in one step. *)
Definition nmass (K : tank) : Q := k_capacity K / inject_Z (Z.of_nat (k_nodes K)).
Definition lossfrac (K : tank) (k c : Q) : Q := UA K k / (nmass K * c).

Definition within (lo hi : Q) (T : list Q) : Prop := Forall (fun x => lo <= x <= hi) T.

(** x moves towards a without passing it. *)
Definition towards (a x y : Q) : Prop := (x <= y <= a) \/ (a <= y <= x).

(** All entries of the specific heat table equal [C]. *)
Definition constant_cp (K : tank) (C : Q) : Prop := forall d c, k_cp K d = Some c -> c == C.

(** Change of the content of a tank with specific heat [C] by [e] kWh: 3.6 MJ each. *)
Definition degrees (K : tank) (C e : Q) : Q := 3600000 * e / (nmass K * C).

(** Thermal conductivities in W/(m K) and the heat conducted in an hour. *)
Inductive conductivity : string -> Q -> Prop :=
| polyurethane : conductivity "polyurethane"%string (25 # 1000)
| fibreglass : conductivity "fibreglass"%string (40 # 1000)
| polystyrene : conductivity "polystyrene"%string (35 # 1000).
Definition seconds_per_hour : Q := 60 * 60.
