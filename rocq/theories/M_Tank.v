(** Model of /repo/pylesa/storage/hot_water_tank.py *)
From Coq Require Import String.
From Verif Require Import Base M_FixedOrder.

(** Constructor attributes, hot_water_tank.py:27-81.  Simplifications: insulation and
    location are already lower-case and stripped (52-53); [k_width] stands for
    dimensions['width'], which line 62 computes with a cube root and therefore is an
    arbitrary number here; [k_pi] is the float [math.pi], a rational number; [k_cp] is
    the table of 80-81 indexed by whole degrees; [k_air] is the hourly outdoor
    temperature.  Temperatures are floats, so the [isinstance] test at 125 holds. *)
Record tank := {
  k_capacity : Q;
  k_insulation : string;
  k_location : string;
  k_nodes : nat;
  k_width : Q;
  k_pi : Q;
  k_openings : Q; k_openings_d : Q;
  k_bare : Q; k_bare_d : Q;
  k_insulated : Q; k_insulated_d : Q;
  k_Fi : Q; k_Fe : Q;
  k_air : list Q;
  k_cp : Z -> option Q }.

Section Tank.
Variable K : tank.
Let n := k_nodes K.

(** hot_water_tank.py:63-66 and 138-146: height, insulation thickness, inner radius *)
Definition height : Q := (1#2) * (5#2) * k_width K.
(** storage/hot_water_tank.py:138-146 *)
Definition thickness : Q := k_width K / 8.
(** storage/hot_water_tank.py:138-146 *)
Definition inner_radius : Q := k_width K - thickness.

(** hot_water_tank.py:83-87 *)
Definition init_temps (initial_temp : Q) : list Q := repeat initial_temp n.

(** hot_water_tank.py:89-97 *)
Definition node_mass : res Q :=
  match n with O => Err ZeroDivisionError | S _ => Ok (k_capacity K / inject_Z (Z.of_nat n)) end.

(** hot_water_tank.py:17-21 and 99-113 *)
Definition k_value : res Q :=
  if String.eqb (k_insulation K) "polyurethane" then Ok ((25#1000) * 3600)
  else if String.eqb (k_insulation K) "fibreglass" then Ok ((4#100) * 3600)
  else if String.eqb (k_insulation K) "polystyrene" then Ok ((35#1000) * 3600)
  else Err ValueError.

(** hot_water_tank.py:115-136 *)
Definition specific_heat (temp : Q) : res Q :=
  if qle temp 100 && qle 0 temp then
    match k_cp K (10 * round_half_even (temp / 10))%Z with Some c => Ok c | None => Err KeyError end
  else Err ValueError.

(** hot_water_tank.py:148-174 with environment/weather.py:13-28 and 78-80, which only hand the table over *)
Definition amb_temp (timestep : Z) : res Q :=
  if String.eqb (k_location K) "outside" then label (k_air K) timestep
  else if String.eqb (k_location K) "inside" then Ok 15
  else Err ValueError.

(** [nodes_temp[0]], storage/hot_water_tank.py:253-298 *)
Definition top (T : list Q) : Q := nth 0 T 0.
(** [nodes_temp[-1]], storage/hot_water_tank.py:176-251 *)
Definition bottom (T : list Q) : Q := nth (n - 1) T 0.

(** hot_water_tank.py:176-219, value for one node (as 0/1 flag) *)
Definition discharging_function (s : tank_state) (T : list Q) (flow : Q) (node : nat) : bool :=
  match s with
  | Discharging =>
      match node with
      | O => qle flow (nth 0 T 0)
      | S p => qlt flow (nth node T 0) && qle (nth p T 0) flow
      end
  | _ => false
  end.

(** hot_water_tank.py:253-298 *)
Definition charging_function (s : tank_state) (T : list Q) (source : Q) (node : nat) : bool :=
  match s with
  | Charging =>
      match node with
      | O => qle (nth 0 T 0) source
      | S p => qle (nth node T 0) source && qle source (nth p T 0)
      end
  | _ => false
  end.

(** hot_water_tank.py:221-251 *)
Definition discharging_bottom_node (s : tank_state) (T : list Q) (flow : Q) (node : nat) : bool :=
  existsb (discharging_function s T flow) (seq 0 n) && Nat.eqb node (n - 1) && qle flow (nth 0 T 0).

(** hot_water_tank.py:300-310 *)
Definition charging_top_node (s : tank_state) (node : nat) : bool :=
  match s with Charging => Nat.eqb node (n - 1) | _ => false end.

(** hot_water_tank.py:330-341: the last flagged node, else one past the bottom *)
Definition last_flagged (f : nat -> bool) : nat := last (filter f (seq 0 n)) n.

(** hot_water_tank.py:312-379 *)
Record mixing := { Fcnt : bool; Fdnt : bool; Fcnb : bool; Fdnb : bool }.
(** storage/hot_water_tank.py:312-379 *)
Definition mixing_function (s : tank_state) (node : nat) (T : list Q) (source flow : Q) : mixing :=
  let node_charging := last_flagged (charging_function s T source) in
  let node_discharging := last_flagged (discharging_function s T flow) in
  match s with
  | Charging =>
      {| Fcnt := negb (Nat.leb node node_charging); Fdnt := false;
         Fcnb := negb (Nat.eqb node (n - 1) || Nat.ltb node node_charging); Fdnb := false |}
  | Discharging =>
      {| Fcnt := false; Fdnt := negb (Nat.eqb node 0 || Nat.leb node node_discharging);
         Fcnb := false; Fdnb := negb (Nat.eqb node (n - 1) || Nat.ltb node node_discharging) |}
  | Standby => {| Fcnt := false; Fdnt := false; Fcnb := false; Fdnb := false |}
  end.

(** hot_water_tank.py:381-414 *)
Definition connection_losses : Q :=
  let opening := (k_openings_d K * (1#1000)) * (k_openings_d K * (1#1000)) * k_pi K * k_openings K * 27 / (4 * (24#1000)) in
  let bare := k_bare_d K * (1#1000) * k_bare K * 5 / (24#1000) in
  let insulated := k_insulated_d K * (1#1000) * k_insulated K * (35#10) / (24#1000) in
  3600 * (opening + bare + insulated).

(** storage/hot_water_tank.py:602-703: A division.  Python floats raise; numpy floats give inf or nan, which
    [math.ceil] at line 664 turns into an exception.  Simplification: ZeroDivisionError
    in every case. *)
Definition fdiv (a b : Q) : res Q := if qeq b 0 then Err ZeroDivisionError else Ok (a / b).

(** hot_water_tank.py:416-421 *)
Definition DH_flow_post_mix (demand flow ret : Q) : res Q :=
  c <- specific_heat flow ;; fdiv demand (c / 1000 * (flow - ret)).
(** hot_water_tank.py:423-428 *)
Definition source_out_pre_mix (output source delta : Q) : res Q :=
  c <- specific_heat source ;; fdiv output (c / 1000 * delta).

(** hot_water_tank.py:430-486 *)
Definition mass_flow_calc (s : tank_state) (flow ret source delta output demand t_bottom t_top : Q) : res Q :=
  match s with
  | Charging =>
      a <- source_out_pre_mix output source delta ;;
      b <- DH_flow_post_mix demand flow ret ;;
      fdiv (a * delta - b * (flow - ret)) (source - t_bottom)
  | Discharging =>
      b <- DH_flow_post_mix demand flow ret ;;
      a <- source_out_pre_mix output source delta ;;
      m <- fdiv (b * (flow - ret) - a * delta) (t_top - ret) ;;
      Ok (pabs m)
  | Standby => Ok 0
  end.

(** A count of 0 or 1, storage/hot_water_tank.py:488-574 *)
Definition flag (b : bool) : Q := if b then 1 else 0.

(** The factor of the standing loss in coefficients A and D, lines storage/hot_water_tank.py:515-516 and
    570-571: Fe * Fi * k / (r2 - r1) * pi * (r1^2 + h (r2 + r1)). *)
Definition loss_factor (k : Q) : Q :=
  k_Fe K * k_Fi K * k * (1 / (k_width K - inner_radius)) * k_pi K *
  (inner_radius * inner_radius + height * (k_width K + inner_radius)).

(** hot_water_tank.py:488-574 with the specific heat [cp] of the node, the node mass
    [mass], the conductivity [k] and the ambient temperature [Ta] looked up by the
    caller.  [mass_flow] is chosen at 576-600; the coefficients of storage/hot_water_tank.py:705-820 are the same with mass_flow = node_mass. *)
Definition coef_A (s : tank_state) (T : list Q) (source flow m mass cp k : Q) (node : nat) : Q :=
  let mf := mixing_function s node T source flow in
  ( - flag (discharging_function s T flow node) * m * cp
    - flag (Fdnt mf) * m * cp
    - flag (Fcnb mf) * m * cp
    - flag (charging_top_node s node) * m * cp
    - loss_factor k ) / (mass * cp).
(** storage/hot_water_tank.py:521-530 *)
Definition coef_B (s : tank_state) (T : list Q) (source flow m mass : Q) (node : nat) : Q :=
  flag (Fcnt (mixing_function s node T source flow)) * m / mass.
(** storage/hot_water_tank.py:532-539 *)
Definition coef_C (s : tank_state) (T : list Q) (source flow m mass : Q) (node : nat) : Q :=
  flag (Fdnb (mixing_function s node T source flow)) * m / mass.
(** storage/hot_water_tank.py:541-574 *)
Definition coef_D (s : tank_state) (T : list Q) (source flow ret m mass cp k Ta : Q) (node : nat) : Q :=
  ( flag (charging_function s T source node) * m * cp * source
    + flag (discharging_bottom_node s T flow node) * m * cp * ret
    + loss_factor k * Ta + k_Fe K * connection_losses ) / (mass * cp).

(** hot_water_tank.py:614-650 and 841-877: the derivative of one node. *)
Definition dT (s : tank_state) (T : list Q) (source flow ret m mass k Ta : Q) (cps : list Q) (node : nat) : Q :=
  let cp := nth node cps 0 in
  let a := coef_A s T source flow m mass cp k node in
  let b := coef_B s T source flow m mass node in
  let c := coef_C s T source flow m mass node in
  let d := coef_D s T source flow ret m mass cp k Ta node in
  let Ti := nth node T 0 in
  if Nat.eqb node 0 then a * Ti + c * nth 1 T 0 + d
  else if Nat.eqb node (n - 1) then a * Ti + b * nth (node - 1) T 0 + d
  else a * Ti + b * nth (node - 1) T 0 + c * nth (node + 1) T 0 + d.

(** One internal step, hot_water_tank.py:691-700 and 907-914: the right-hand side does
    not depend on the integration variable, so odeint over one unit of time adds dT.
    [check_nodes] stands for the IndexError of nodes_temp[node + 1] with fewer than two
    nodes and for the failures with a state of the wrong length.  [Qred] only keeps the
    fractions small. *)
Definition check_nodes (T : list Q) : res unit :=
  if Nat.ltb n 2 || negb (Nat.eqb (length T) n) then Err IndexError else Ok tt.
(** storage/hot_water_tank.py:614-650 and 696-700 with the coefficients of 576-600 *)
Definition euler (s : tank_state) (T : list Q) (source flow ret m : Q) (timestep : Z) : res (list Q) :=
  _ <- check_nodes T ;;
  mass <- node_mass ;;
  cps <- mapM specific_heat T ;;
  k <- k_value ;;
  Ta <- amb_temp timestep ;;
  Ok (map (fun i => Qred (nth i T 0 + dT s T source flow ret m mass k Ta cps i)) (seq 0 n)).

(** storage/hot_water_tank.py:602-703: sorted(nodes_temp, reverse=True) *)
Fixpoint insert_desc (x : Q) (l : list Q) : list Q :=
  match l with
  | [] => [x]
  | y :: r => if qlt y x then x :: l else y :: insert_desc x r
  end.
(** [sorted(nodes_temp, reverse=True)], storage/hot_water_tank.py:602-703 *)
Definition sort_desc (l : list Q) : list Q := fold_right insert_desc [] l.

(** One pass of the loop at storage/hot_water_tank.py:686-702, with set_of_coefficients 576-600. *)
Definition inner_step (s : tank_state) (source delta flow ret output demand : Q) (timestep : Z)
  (T : list Q) : res (list Q) :=
  m1 <- mass_flow_calc s flow ret source delta output demand (bottom T) (top T) ;;
  mass <- node_mass ;;
  let m := pmin m1 mass in
  T' <- euler s T source flow ret m timestep ;;
  Ok (sort_desc T').

(** storage/hot_water_tank.py:686-702 *)
Fixpoint inner_loop (f : list Q -> res (list Q)) (count : nat) (T : list Q) : res (list (list Q)) :=
  match count with
  | O => Ok []
  | S c => T' <- f T ;; rest <- inner_loop f c T' ;; Ok (T' :: rest)
  end.

(** hot_water_tank.py:602-703.  The result is a list of node states or, in the two
    early returns, a flat list of temperatures. *)
Inductive new_nodes_result := Flat (l : list Q) | States (l : list (list Q)).
(** storage/hot_water_tank.py:659-668 *)
Definition inner_count (s : tank_state) (T : list Q) (source delta flow ret output demand : Q) : res nat :=
  m <- mass_flow_calc s flow ret source delta output demand (bottom T) (top T) ;;
  mass <- node_mass ;;
  q <- fdiv (m * 3600) mass ;;
  Ok (Z.to_nat (Z.max (Z.min (Z.of_nat n) (pceil q)) 1)).
(** storage/hot_water_tank.py:602-703 *)
Definition new_nodes_temp (s : tank_state) (T : list Q) (source delta flow ret output demand : Q)
  (timestep : Z) : res new_nodes_result :=
  if qeq (k_capacity K) 0 then Ok (Flat T)
  else if qeq (qsum T) (source * inject_Z (Z.of_nat (length T))) &&
          match s with Charging => true | _ => false end
  then Ok (Flat (concat (repeat T (length T))))
  else
    _ <- check_nodes T ;;
    t <- inner_count s T source delta flow ret output demand ;;
    let tq := inject_Z (Z.of_nat t) in
    l <- inner_loop (inner_step s source delta flow ret (output * 3600 / tq) (demand * 3600 / tq) timestep) t T ;;
    Ok (States l).

(** next_nodes_temp[-1], fixed_order.py:281 etc.  From a flat list this is a number,
    which makes the next use of the tank fail with TypeError; the model raises at once. *)
Definition last_state (r : new_nodes_result) : res (list Q) :=
  match r with
  | Flat _ => Err TypeError
  | States l => match l with [] => Err IndexError | x :: r => Ok (last r x) end
  end.

(** hot_water_tank.py:892-914: the energies of the steps; the coefficients of 705-741, 743-753, 755-765, 767-802 and 804-820 are those of [dT] with the node mass as mass flow. *)
Fixpoint max_loop (s : tank_state) (source flow ret mass cp : Q) (timestep : Z) (count : nat) (T : list Q)
  : res (list Q) :=
  match count with
  | O => Ok []
  | S c =>
      let energy :=
        match s with
        | Charging => if qlt (bottom T) source then mass * cp * (source - bottom T) else 0
        | Discharging => if qlt flow (top T) then mass * cp * (top T - ret) else 0
        | Standby => 0
        end in
      T' <- euler s T source flow ret mass timestep ;;
      rest <- max_loop s source flow ret mass cp timestep c T' ;;
      Ok (energy :: rest)
  end.

(** hot_water_tank.py:822-918.  The coefficients computed at 884-886 before the loop
    can only raise; they are not modelled for a tank of one node, where the loop is
    empty. *)
Definition max_energy_in_out (s : tank_state) (T : list Q) (source flow ret : Q) (timestep : Z) : res Q :=
  let len := inject_Z (Z.of_nat (length T)) in
  if qle (source * len) (qsum T) && match s with Charging => true | _ => false end then Ok 0
  else if qle (qsum T) (ret * len) && match s with Discharging => true | _ => false end then Ok 0
  else if qeq (k_capacity K) 0 then Ok 0
  else
    mass <- node_mass ;;
    cp <- specific_heat source ;;
    l <- max_loop s source flow ret mass cp timestep (n - 1) T ;;
    Ok (qsum l / 3600000).
End Tank.

(** The tank as used by the fixed-order controller: the return temperature and the
    source temperature difference are attributes of the controller
    (fixed_order.py:48-57, 115-118). *)
Definition tank_instance (K : tank) (ret delta : Q) : tank_ops :=
  {| t_capacity := k_capacity K;
     t_init := init_temps K ret;
     t_max := fun s T source flow t => max_energy_in_out K s T source flow ret t;
     t_new := fun s T source flow output demand t =>
       r <- new_nodes_temp K s T source delta flow ret output demand t ;; last_state r |}.
