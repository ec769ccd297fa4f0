(* Model of the station data of output files (src/eustace/outputformats/stationdata.py).
   Simplifications: times and values are exact numbers; a masked cell has no value (the fill value beneath it is left out); a set
   of python keeps an element unless it holds one of the same hash that is equal; hashes are small integers. *)
From Coq Require Import QArith Qabs Qround String Ascii.
From Verif Require Import Base.
Local Open Scope string_scope.
Local Open Scope list_scope.

(* ---- 25-46 StationDescriptionArray: only the names of stations matter here *)

(* 30-33: the dictionary keeps the last index of a name; 43-45 get_station_index, counting from zero *)
Fixpoint index_from (k : nat) (names : list string) (name : string) : option nat :=
  match names with
  | [] => None
  | n :: names => match index_from (S k) names name with Some i => Some i | None => if String.eqb n name then Some k else None end
  end.
Definition station_index (names : list string) (name : string) : option nat := index_from 0 names name.

(* ---- 93-115 MeasurementTime *)

Definition RESOLUTION : Q := 5 # 10000.
(* int(time), towards zero *)
Definition truncate (t : Q) : Z := if Qle_bool 0 t then Qfloor t else Qceiling t.
(* 107-110 __hash__; python turns -1 into -2 *)
Definition time_hash (t : Q) : Z := let h := truncate t in if (h =? -1)%Z then (-2)%Z else h.
(* 112-115 __eq__: abs(other.time - self.time) < RESOLUTION *)
Definition same_time (a b : Q) : bool := negb (Qle_bool RESOLUTION (Qabs (b - a))).

(* ---- 118-148 StationData *)

Record sample := { s_station : string; s_time : Q; s_tasmin : Q; s_tasmin_qc : Q; s_tasmax : Q; s_tasmax_qc : Q }.
(* 78-90: a pair of bounds each *)
Record station_break := { k_station : string; k_amplitude : Q; k_bounds : Q * Q; k_affected : Q * Q }.
Record station_data :=
  { names : list string; samples : list sample; tasmin_breaks : list station_break; tasmax_breaks : list station_break }.
(* 121-126 *)
Definition station_data_new (ns : list string) : station_data := {| names := ns; samples := []; tasmin_breaks := []; tasmax_breaks := [] |}.
(* 128-131 *)
Definition add_temperature_sample (d : station_data) (s : sample) : station_data :=
  {| names := names d; samples := samples d ++ [s]; tasmin_breaks := tasmin_breaks d; tasmax_breaks := tasmax_breaks d |}.
(* 138-141 *)
Definition add_break (d : station_data) (variable : string) (b : station_break) : result station_data :=
  if String.eqb variable "tasmin" then
    Ok {| names := names d; samples := samples d; tasmin_breaks := tasmin_breaks d ++ [b]; tasmax_breaks := tasmax_breaks d |}
  else if String.eqb variable "tasmax" then
    Ok {| names := names d; samples := samples d; tasmin_breaks := tasmin_breaks d; tasmax_breaks := tasmax_breaks d ++ [b] |}
  else Err KeyError.

(* several breaks one after another *)
Fixpoint add_breaks (d : station_data) (l : list (string * station_break)) : result station_data :=
  match l with [] => Ok d | (v, b) :: l => do d <- add_break d v b; add_breaks d l end.
(* 146-147: set([MeasurementTime(t), ...]) *)
Definition set_add (l : list Q) (t : Q) : list Q :=
  if existsb (fun u => (time_hash u =? time_hash t)%Z && same_time u t) l then l else l ++ [t].
Definition time_set (ts : list Q) : list Q := fold_left set_add ts [].
(* 148 result.sort() *)
Fixpoint insert (t : Q) (l : list Q) : list Q :=
  match l with [] => [t] | u :: r => if Qle_bool t u then t :: l else u :: insert t r end.
Definition sort (l : list Q) : list Q := fold_right insert [] l.
(* 143-149 *)
Definition unique_times (d : station_data) : list Q := sort (time_set (map s_time (samples d))).

(* 150-182 get_temperature_samples *)
Definition cells := list (list (option Q)).
Fixpoint update {A} (l : list A) (i : nat) (f : A -> A) : list A :=
  match l, i with [], _ => [] | x :: l, O => f x :: l | x :: l, S i => x :: update l i f end.
(* 178-179: an index that is None means the whole row *)
Definition put (c : cells) (i : nat) (j : option nat) (v : Q) : cells :=
  update c i (fun row => match j with Some j => update row j (fun _ => Some v) | None => map (fun _ => Some v) row end).
(* 176 measurement_times.index *)
Fixpoint time_index (axis : list Q) (t : Q) : option nat :=
  match axis with [] => None | a :: axis => if same_time a t then Some O else match time_index axis t with Some i => Some (S i) | None => None end end.
(* 177 sample.__dict__[variable.name], for the members that are numbers *)
Definition member (s : sample) (variable : string) : option Q :=
  if String.eqb variable "tasmin" then Some (s_tasmin s) else if String.eqb variable "tasmin_qc" then Some (s_tasmin_qc s)
  else if String.eqb variable "tasmax" then Some (s_tasmax s) else if String.eqb variable "tasmax_qc" then Some (s_tasmax_qc s)
  else if String.eqb variable "time" then Some (s_time s) else None.
Definition place (ns : list string) (axis : list Q) (variable : string) (c : cells) (s : sample) : result cells :=
  match time_index axis (s_time s) with
  | None => Err ValueError
  | Some i => match member s variable with None => Err KeyError | Some v => Ok (put c i (station_index ns (s_station s)) v) end
  end.
Fixpoint place_all (ns : list string) (axis : list Q) (variable : string) (c : cells) (l : list sample) : result cells :=
  match l with [] => Ok c | s :: l => do c <- place ns axis variable c s; place_all ns axis variable c l end.
Definition get_temperature_samples (d : station_data) (axis : list Q) (variable : string) : result cells :=
  place_all (names d) axis variable (repeat (repeat None (length (names d))) (length axis)) (samples d).

(* 189-204 get_break_variable *)
(* str.split(sep) for a separator that is not empty; [skip] characters of an occurrence are still to be dropped *)
Fixpoint split_at (sep : string) (skip : nat) (s : string) : list string :=
  match s with
  | EmptyString => [EmptyString]
  | String c r =>
      match skip with
      | S k => split_at sep k r
      | O => if String.prefix sep s then EmptyString :: split_at sep (String.length sep - 1) r
             else match split_at sep 0 r with [] => [] | h :: t => String c h :: t end
      end
  end.
Definition split (sep s : string) : list string := split_at sep 0 s.
Inductive break_values := Indices (l : list nat) | Amounts (l : list Q) | Bounds (l : list (Q * Q)).
(* 201-203: an index that is None is not an integer *)
Fixpoint station_indices (ns : list string) (l : list station_break) : result (list nat) :=
  match l with
  | [] => Ok []
  | b :: l => match station_index ns (k_station b) with None => Err TypeError | Some i => do r <- station_indices ns l; Ok (i :: r) end
  end.
Definition get_break_variable (d : station_data) (variable : string) : result break_values :=
  match split "_break_" variable with
  | [measurement; parameter] =>
      do l <- (if String.eqb measurement "tasmin" then Ok (tasmin_breaks d) else if String.eqb measurement "tasmax" then Ok (tasmax_breaks d) else Err KeyError);
      if String.eqb parameter "station" || String.eqb parameter "station_name" then do r <- station_indices (names d) l; Ok (Indices r)
      else if String.eqb parameter "amplitude" then Ok (Amounts (map k_amplitude l))
      else if String.eqb parameter "time_bounds" then Ok (Bounds (map k_bounds l))
      else if String.eqb parameter "time_affected_bounds" then Ok (Bounds (map k_affected l))
      else match l with [] => Ok (Amounts []) | _ => Err KeyError end
  | _ => Err ValueError
  end.
