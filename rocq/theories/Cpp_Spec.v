(* What the properties of the C++ reader say, without reference to how it reads. *)
From Coq Require Import String Ascii.
From Verif Require Import Base Obs_Model Obs_Spec Cpp_Model.
Local Open Scope Z_scope.
Local Open Scope list_scope.

(* one observation read back: identifier, measurement, uncorrelated and correlated uncertainties *)
Definition location (r : obs_record) : Z := fst (fst (fst r)).
Definition with_identifier (d : Z) (r : obs_record) : obs_record := let '(_, m, u, cs) := r in (d, m, u, cs).

(* the observations of one location over a list of days with their records, each carrying the day *)
Definition history (l : Z) (days : list (Z * list obs_record)) : list obs_record :=
  flat_map (fun dr => map (with_identifier (fst dr)) (filter (fun r => location r =? l) (snd dr))) days.

(* a base directory holds the correlation ranges of an observable and the location table of a source *)
Definition holds_tables (fs : files) (base : string) (s : source) (o : observable) (ranges : list Z) (table : lookup) : Prop :=
  fs (path_ranges base s o) = Some (write_ranges ranges) /\ Forall word ranges /\ zlen ranges < 2 ^ 58 /\
  (exists name, staticlocation s = Some name /\ fs (path_lookup base name) = Some (write_lookup table)) /\
  is_uuid (lk_uuid table) /\ Forall (fun ll => word (fst ll) /\ word (snd ll)) (lk_table table) /\ zlen (lk_table table) < 2 ^ 58.

(* what a manager has kept is what the files hold *)
Definition caches_match (fs : files) (m : manager) : Prop :=
  (forall path x, cache_find (m_ranges m) path = Some x -> exists junk, cpp_read_ranges junk (sopen fs path) = Ok x) /\
  (forall path x, cache_find (m_lookups m) path = Some x -> exists junk, cpp_read_lookup junk new_lookup (sopen fs path) = Ok x).

(* calls of a manager and their answers *)
Inductive call :=
| CDay (r : retrieval) (s : source) (o : observable) (daynumber : Z)
| CLocations (s : source) (o : observable) (ids : list Z)
| CDailyTotal (s : source) (o : observable) (daynumber : Z)
| CTotal (inputs : list input) (s : source) (o : observable)
| CTotalLocations (s : source)
| CMobileLocations (s : source) (o : observable) (daynumber : Z).
Inductive answer := ADay (r : result retrieval) | ALocations (r : result (list retrieval)) | ACount (r : result Z).
Definition do_call (fs : files) (junk : junk_buffers) (m : manager) (c : call) : manager * answer :=
  match c with
  | CDay r s o d => let (m, x) := retrieve_day fs junk m r s o d in (m, ADay x)
  | CLocations s o ids => let (m, x) := retrieve_locations fs junk m s o ids in (m, ALocations x)
  | CDailyTotal s o d => let (m, x) := total_daily_observations fs junk m s o d in (m, ACount x)
  | CTotal inputs s o => let (m, x) := total_observations fs junk m inputs s o in (m, ACount x)
  | CTotalLocations s => (m, ACount (total_locations fs junk m s))
  | CMobileLocations s o d => (m, ACount (total_daily_mobile_locations fs junk m s o d))
  end.
Fixpoint do_calls (fs : files) (junk : junk_buffers) (m : manager) (cs : list call) : list answer :=
  match cs with [] => [] | c :: r => let (m, a) := do_call fs junk m c in a :: do_calls fs junk m r end.

(* base directories whose names the two languages treat alike *)
Definition plain_base (base : string) : Prop :=
  base <> ""%string /\ Time_Model.ends_with_slash base = false /\ ~ In "%"%char (list_ascii_of_string base).
(* days whose year has four digits *)
Definition four_digit_day (d : Z) : Prop :=
  Time_Model.ymd2ord 1000 1 1 <= Time_Model.ymd2ord 1850 1 1 + d <= Time_Model.ymd2ord 9999 12 31.

(* the days of a source and observable that a list of inputs asks for *)
Definition asked_days (s : source) (o : observable) (inputs : list input) : list Z :=
  flat_map (fun i => zrange (in_start i) (in_end i + 1)) (filter (fun i => source_eqb (in_source i) s && observable_eqb (in_observable i) o) inputs).

(* the files there are *)
Inductive kind_of_file :=
| FObservations (s : source) (o : observable) (daynumber : Z)
| FMobileLocations (s : source) (o : observable) (daynumber : Z)
| FPointers (s : source) (o : observable)
| FRanges (s : source) (o : observable)
| FLookup (name : string).
Definition path_of (base : string) (k : kind_of_file) : string :=
  match k with
  | FObservations s o d => path_observation base s o d
  | FMobileLocations s o d => path_mobile base s o d
  | FPointers s o => path_pointers base s o
  | FRanges s o => path_ranges base s o
  | FLookup name => path_lookup base name
  end.
Definition kind_ok (k : kind_of_file) : Prop :=
  match k with
  | FObservations _ _ d | FMobileLocations _ _ d => four_digit_day d
  | FPointers _ _ | FRanges _ _ => True
  | FLookup name => exists s, staticlocation s = Some name
  end.
