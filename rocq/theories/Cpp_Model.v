(* Model of the C++ library that reads the observation files: src/cpp/eustace/analysis/inputmanager.{h,cpp},
   observationsource.h, fileio/rawbinary.{h,cpp}, fileio/locationpointers.{h,cpp}, break_points/break_points.{h,cpp} and
   src/cpp/eustace/timeutils/timebase.cpp.  Files are lists of bytes and 64-bit numbers are words, as in Obs_Model, which
   models the Python code that writes these files.  FormatExceptionBadHeader is OperationException here,
   FormatExceptionUnexpectedDataSize is ValueError, an element read outside an array (undefined in C++) is IndexError, and
   std::length_error is ModuleError.  Memory is unlimited.  Allocation and deletion of objects is left out: pointers into a
   cache are the values kept there, which never change. *)
From Coq Require Import QArith Qcanon String Ascii.
From Verif Require Import Base Cat_Model Grid_Model Time_Model Obs_Model.
Local Open Scope Z_scope.
Local Open Scope list_scope.

(* ---- std::istream on a file: contents, position, failbit *)
Record stream := { st_data : list byte; st_pos : Z; st_fail : bool }.
Definition files := string -> option (list byte).
(* std::ifstream inputstream(pathname, std::ios::binary): a file that cannot be opened leaves the stream failed *)
Definition sopen (fs : files) (path : string) : stream :=
  match fs path with
  | Some data => {| st_data := data; st_pos := 0; st_fail := false |}
  | None => {| st_data := []; st_pos := 0; st_fail := true |}
  end.
Definition failed (s : stream) : stream := {| st_data := st_data s; st_pos := st_pos s; st_fail := true |}.
Definition move (s : stream) (p : Z) : stream := {| st_data := st_data s; st_pos := p; st_fail := st_fail s |}.
(* read(buffer, n): what there is goes to the front of the buffer; less than n sets the failbit; nothing is done on a
   failed stream *)
Definition sread (n : nat) (buffer : list byte) (s : stream) : list byte * stream :=
  if st_fail s then (buffer, s)
  else let got := firstn n (skipn (Z.to_nat (st_pos s)) (st_data s)) in
       if (length got =? n)%nat then (got, move s (st_pos s + Z.of_nat n))
       else (got ++ skipn (length got) buffer, failed s).
(* seekg from the beginning; an offset that is negative as a 64-bit number fails *)
Definition sseek (p : Z) (s : stream) : stream :=
  if st_fail s then s else if p <? 2 ^ 63 then move s p else failed s.
Definition sseek_end (s : stream) : stream := if st_fail s then s else move s (zlen (st_data s)).
(* size_t(tellg()): -1 on a failed stream *)
Definition stellg (s : stream) : Z := if st_fail s then 2 ^ 64 - 1 else st_pos s.

(* std::vector<uint8_t>::resize *)
Definition resize (old : list byte) (n : nat) : list byte := firstn n old ++ repeat 0 (n - length old).

(* ---- fileio/rawbinary.cpp *)

(* 10-23 RawBinaryReader::ReadAndCheckHeader.  The buffer is not initialised: junk is what it happens to hold.  The format
   strings have sixteen characters and no zero among them, so strncmp is zero exactly if all sixteen agree. *)
Definition cpp_read_header (formatid junk : list byte) (s : stream) : result stream :=
  let (file_format_id, s) := sread 16 junk s in
  let (_, s) := sread 16 junk s in
  if bytes_eqb file_format_id formatid then Ok s else Err OperationException.

(* 25-41 RawBinaryReader::NumEntriesRemaining *)
Definition num_entries_remaining (s : stream) (entrysize : Z) : result (Z * stream) :=
  let startposition := stellg s in
  let s := sseek_end s in
  let endposition := stellg s in
  let s := sseek startposition s in
  let databytes := (endposition - startposition) mod 2 ^ 64 in
  if databytes mod entrysize =? 0 then Ok (databytes / entrysize, s) else Err ValueError.

(* 48-61 ReadAndCheckExtendedHeader; the identifier begins as zeros (observationsource.h:17-20) *)
Definition cpp_read_extended (formatid : list byte) (entrysize : Z) (junk : list byte) (s : stream) : result (list byte * Z * stream) :=
  do s <- cpp_read_header formatid junk s;
  let (uuid, s) := sread 16 (repeat 0 16) s in
  do ns <- num_entries_remaining s entrysize;
  Ok (uuid, fst ns, snd ns).

(* observationsource.h:69-114 ObservationEntries *)
Record entries := { oe_ranges : nat; oe_num : Z; oe_uuid : list byte; oe_bytes : list byte }.
Definition entry_size (k : nat) : nat := 8 + 8 + 8 + 8 * k.
Definition new_entries : entries := {| oe_ranges := 0; oe_num := 0; oe_uuid := repeat 0 16; oe_bytes := [] |}.

(* 79-88 ObservationRawBinaryReader::Read into an object that may have been used before *)
Definition cpp_read_observations (k : nat) (junk : list byte) (old : entries) (s : stream) : result entries :=
  do uns <- cpp_read_extended FORMATID_OBSERVATION (Z.of_nat (entry_size k)) junk s;
  let '(uuid, n, s) := uns in
  let size := Z.to_nat (n * Z.of_nat (entry_size k)) in
  Ok {| oe_ranges := k; oe_num := n; oe_uuid := uuid; oe_bytes := fst (sread size (resize (oe_bytes old) size) s) |}.

(* 105-114 LocationLookupRawBinaryReader::Read *)
Definition cpp_read_lookup (junk : list byte) (old : lookup) (s : stream) : result lookup :=
  do uns <- cpp_read_extended FORMATID_LOCATION_LOOKUP 16 junk s;
  let '(uuid, n, s) := uns in
  let size := Z.to_nat (n * 16) in
  let old_bytes := flat_map (fun ll => encode [fst ll; snd ll]) (lk_table old) in
  let bytes := fst (sread size (resize old_bytes size) s) in
  Ok {| lk_uuid := uuid; lk_table := map (fun r => (unle (firstn 8 r), unle (skipn 8 r))) (chunks (Z.to_nat n) 16 bytes) |}.
Definition new_lookup : lookup := {| lk_uuid := repeat 0 16; lk_table := [] |}.

(* 126-140 LocalCorrelationRangeRawBinaryReader::Read into a new vector *)
Definition cpp_read_ranges (junk : list byte) (s : stream) : result (list Z) :=
  do s <- cpp_read_header FORMATID_LOCAL_CORRELATION_RANGE junk s;
  do ns <- num_entries_remaining s 8;
  let size := Z.to_nat (fst ns * 8) in
  Ok (map unle (chunks (Z.to_nat (fst ns)) 8 (fst (sread size (repeat 0 size) (snd ns))))).

(* ---- observationsource.h:116-165 ObservationIterator and inputmanager.h:131-147: one record is the identifier, the
   measurement, the uncorrelated and the locally correlated uncertainties *)
Record iterator := { it_entries : entries; it_index : Z; it_pointer : nat }.
Definition iterator_of (e : entries) : iterator := {| it_entries := e; it_index := 0; it_pointer := 0 |}.
Definition word_at (bs : list byte) (p : nat) : Z := unle (firstn 8 (skipn p bs)).
Definition current (it : iterator) : Z * Z * Z * list Z :=
  let at_ := word_at (oe_bytes (it_entries it)) in
  let p := it_pointer it in
  (at_ p, at_ (p + 8)%nat, at_ (p + 16)%nat, map (fun i => at_ (p + 24 + 8 * i)%nat) (seq 0 (oe_ranges (it_entries it)))).
Definition has_element (it : iterator) : bool := it_index it <? oe_num (it_entries it).
Definition next (it : iterator) : iterator :=
  {| it_entries := it_entries it; it_index := it_index it + 1; it_pointer := it_pointer it + entry_size (oe_ranges (it_entries it)) |}.
(* while (iter.HasElement()) { ...; iter.Next(); } *)
Fixpoint walk (fuel : nat) (it : iterator) : list (Z * Z * Z * list Z) :=
  match fuel with
  | O => []
  | S fuel => if has_element it then current it :: walk fuel (next it) else []
  end.

(* ---- inputmanager *)

(* inputmanager.h:18-35, inputmanager.cpp:7-22 *)
Inductive source := SatLand | SatOcean | SatIce | SatLake | InsituLand | InsituOcean.
Inductive observable := Tmin | Tmax | Tmean.
Definition sourcename (s : source) : string :=
  match s with
  | SatLand => "surfaceairmodel_land" | SatOcean => "surfaceairmodel_ocean" | SatIce => "surfaceairmodel_ice"
  | SatLake => "surfaceairmodel_lake" | InsituLand => "insitu_land" | InsituOcean => "insitu_ocean"
  end.
Definition observablename (o : observable) : string := match o with Tmin => "Tmin" | Tmax => "Tmax" | Tmean => "Tmean" end.
Definition source_eqb (a b : source) : bool :=
  match a, b with
  | SatLand, SatLand | SatOcean, SatOcean | SatIce, SatIce | SatLake, SatLake | InsituLand, InsituLand | InsituOcean, InsituOcean => true
  | _, _ => false
  end.
Definition observable_eqb (a b : observable) : bool :=
  match a, b with Tmin, Tmin | Tmax, Tmax | Tmean, Tmean => true | _, _ => false end.
(* 54-62: sources with fixed locations *)
Definition staticlocation (s : source) : option string :=
  match s with
  | SatLand | SatOcean | SatIce => Some "satellite"%string
  | SatLake => Some "lake"%string
  | InsituLand => Some "insitu_land"%string
  | InsituOcean => None
  end.

(* timebase.cpp:24-35, 45-51: the date of a day as text.  mktime is taken in a time zone without shifts of the clock, and
   strftime for years of four digits. *)
Definition datestring (daynumber : Z) : string :=
  let '(y, m, d) := ord2ymd (ymd2ord 1850 1 1 + daynumber) in (pad4 y ++ pad2 m ++ pad2 d)%string.

(* 298-347 path names *)
Definition path_observation (base : string) (s : source) (o : observable) (daynumber : Z) : string :=
  let date := datestring daynumber in
  (base ++ "/" ++ sourcename s ++ "/" ++ str_slice date 0 4 ++ "/" ++ sourcename s ++ "_" ++ observablename o ++ "_" ++ date ++ ".bin")%string.
Definition path_pointers (base : string) (s : source) (o : observable) : string :=
  (base ++ "/" ++ sourcename s ++ "_" ++ observablename o ++ "_locationpointers.bin")%string.
Definition path_lookup (base : string) (name : string) : string := (base ++ "/locationlookup_" ++ name ++ ".bin")%string.
Definition path_mobile (base : string) (s : source) (o : observable) (daynumber : Z) : string :=
  let date := datestring daynumber in
  (base ++ "/" ++ sourcename s ++ "/" ++ str_slice date 0 4 ++ "/" ++ sourcename s ++ "_" ++ observablename o ++ "_mobilelocations_" ++ date ++ ".bin")%string.
Definition path_ranges (base : string) (s : source) (o : observable) : string :=
  (base ++ "/" ++ sourcename s ++ "_" ++ observablename o ++ "_localcorrelationranges.bin")%string.

(* the manager: base path and caches (inputmanager.h:245-250); the list of inputs is given to total_observations *)
Record manager := { m_base : string; m_lookups : list (string * lookup); m_ranges : list (string * list Z) }.
Definition new_manager (base : string) : manager := {| m_base := base; m_lookups := []; m_ranges := [] |}.
(* what an uninitialised buffer holds when the file of a path is read *)
Definition junk_buffers := string -> list byte.

(* inputmanager.h:167-179 AnalysisInputCache::Retrieve; an exception in Read leaves the cache as it is *)
Fixpoint cache_find {A} (c : list (string * A)) (path : string) : option A :=
  match c with [] => None | (p, x) :: r => if String.eqb p path then Some x else cache_find r path end.
Definition cached_ranges (fs : files) (junk : junk_buffers) (m : manager) (path : string) : manager * result (list Z) :=
  match cache_find (m_ranges m) path with
  | Some x => (m, Ok x)
  | None => match cpp_read_ranges (junk path) (sopen fs path) with
            | Ok x => ({| m_base := m_base m; m_lookups := m_lookups m; m_ranges := (path, x) :: m_ranges m |}, Ok x)
            | Err e => (m, Err e)
            end
  end.
Definition cached_lookup (fs : files) (junk : junk_buffers) (m : manager) (path : string) : manager * result lookup :=
  match cache_find (m_lookups m) path with
  | Some x => (m, Ok x)
  | None => match cpp_read_lookup (junk path) new_lookup (sopen fs path) with
            | Ok x => ({| m_base := m_base m; m_lookups := (path, x) :: m_lookups m; m_ranges := m_ranges m |}, Ok x)
            | Err e => (m, Err e)
            end
  end.

(* inputmanager.h:74-111 AnalysisInputRetrieval *)
Record retrieval := { r_ranges : list Z; r_lookup : lookup; r_mobile : lookup; r_obs : entries }.
Definition new_retrieval : retrieval := {| r_ranges := []; r_lookup := new_lookup; r_mobile := new_lookup; r_obs := new_entries |}.
Definition observations_of (r : retrieval) : list (Z * Z * Z * list Z) := walk (S (Z.to_nat (oe_num (r_obs r)))) (iterator_of (r_obs r)).
(* inputmanager.h:100-103, 140-143 *)
Definition location_of (r : retrieval) (identifier : Z) : result (Z * Z) :=
  match nth_error (lk_table (r_lookup r)) (Z.to_nat identifier) with Some x => Ok x | None => Err IndexError end.

(* 163-207 RetrieveDay.  What a failed call leaves in the retrieval is not modelled; what it leaves in the caches is. *)
Definition retrieve_day (fs : files) (junk : junk_buffers) (m : manager) (r : retrieval) (s : source) (o : observable) (daynumber : Z)
  : manager * result retrieval :=
  let (m, ranges) := cached_ranges fs junk m (path_ranges (m_base m) s o) in
  match ranges with
  | Err e => (m, Err e)
  | Ok ranges =>
      let (m, mobile_lookup) :=
        match staticlocation s with
        | Some name => let (m, l) := cached_lookup fs junk m (path_lookup (m_base m) name) in
                       (m, do l <- l; Ok (r_mobile r, l))
        | None => let path := path_mobile (m_base m) s o daynumber in
                  (m, do l <- cpp_read_lookup (junk path) (r_mobile r) (sopen fs path); Ok (l, l))
        end in
      (m, do ml <- mobile_lookup;
          let path := path_observation (m_base m) s o daynumber in
          do obs <- cpp_read_observations (length ranges) (junk path) (r_obs r) (sopen fs path);
          Ok {| r_ranges := ranges; r_lookup := snd ml; r_mobile := fst ml; r_obs := obs |})
  end.

(* locationpointers.cpp:27-71 LocationPointersRawBinaryReader::Read.  The number of locations of the header is not used.  The
   failbit, once set, stays.  max_size of a vector of records of sixteen bytes is 2^59-1. *)
Definition signed64 (w : Z) : Z := if w <? 2 ^ 63 then w else w - 2 ^ 64.
Fixpoint read_pointer_lists (table_start : Z) (ids : list Z) (s : stream) : result (list (list (Z * Z))) :=
  match ids with
  | [] => Ok []
  | id :: rest =>
      let s := sseek ((table_start + id * 16) mod 2 ^ 64) s in
      let (localoffset, s) := sread 16 (repeat 0 16) s in
      let fileoffset := unle (firstn 8 localoffset) in
      let count := unle (skipn 8 localoffset) in
      let s := sseek fileoffset s in
      if 2 ^ 59 <=? count then Err ModuleError
      else
        let size := Z.to_nat (16 * count) in
        let (records, s) := sread size (repeat 0 size) s in
        do more <- read_pointer_lists table_start rest s;
        Ok (map (fun r => (signed64 (unle (firstn 8 r)), unle (skipn 8 r))) (chunks (Z.to_nat count) 16 records) :: more)
  end.
Definition cpp_read_pointers (junk : list byte) (ids : list Z) (s : stream) : result (list (list (Z * Z))) :=
  do s <- cpp_read_header FORMATID_LOCATION_POINTERS junk s;
  let (_, s) := sread 16 (repeat 0 16) s in
  let (_, s) := sread 8 (repeat 0 8) s in
  read_pointer_lists (stellg s) ids s.

(* 267-293: the bytes of the observations of one location: for each day the day number, then what is read from the file of
   that day into a zeroed buffer *)
Definition read_at (fs : files) (k : nat) (path : string) (fileoffset : Z) : list byte :=
  let size := (entry_size k - 8)%nat in
  fst (sread size (repeat 0 size) (sseek fileoffset (sopen fs path))).
Definition location_bytes (fs : files) (base : string) (s : source) (o : observable) (k : nat) (pointers : list (Z * Z)) : list byte :=
  flat_map (fun df => word_bytes (fst df) ++ read_at fs k (path_observation base s o (fst df)) (snd df)) pointers.

(* 209-295 RetrieveLocations *)
Definition retrieve_locations (fs : files) (junk : junk_buffers) (m : manager) (s : source) (o : observable) (ids : list Z)
  : manager * result (list retrieval) :=
  match staticlocation s with
  | None => (m, Ok [])
  | Some name =>
      let (m, ranges) := cached_ranges fs junk m (path_ranges (m_base m) s o) in
      match ranges with
      | Err e => (m, Err e)
      | Ok ranges =>
          let (m, l) := cached_lookup fs junk m (path_lookup (m_base m) name) in
          (m, do l <- l;
              let path := path_pointers (m_base m) s o in
              do pointer_records <- cpp_read_pointers (junk path) ids (sopen fs path);
              Ok (map (fun pointers => {| r_ranges := ranges; r_lookup := l; r_mobile := new_lookup;
                                          r_obs := {| oe_ranges := length ranges; oe_num := zlen pointers; oe_uuid := repeat 0 16;
                                                      oe_bytes := location_bytes fs (m_base m) s o (length ranges) pointers |} |})
                      pointer_records))
      end
  end.

(* 69-89 TotalLocations *)
Definition total_locations (fs : files) (junk : junk_buffers) (m : manager) (s : source) : result Z :=
  match staticlocation s with
  | Some name => let path := path_lookup (m_base m) name in
                 do uns <- cpp_read_extended FORMATID_LOCATION_LOOKUP 16 (junk path) (sopen fs path); Ok (snd (fst uns))
  | None => Ok 0
  end.
(* 91-108 TotalDailyMobileLocations *)
Definition total_daily_mobile_locations (fs : files) (junk : junk_buffers) (m : manager) (s : source) (o : observable) (daynumber : Z) : result Z :=
  let path := path_mobile (m_base m) s o daynumber in
  do uns <- cpp_read_extended FORMATID_LOCATION_LOOKUP 16 (junk path) (sopen fs path); Ok (snd (fst uns)).
(* 110-135 TotalDailyObservations *)
Definition total_daily_observations (fs : files) (junk : junk_buffers) (m : manager) (s : source) (o : observable) (daynumber : Z) : manager * result Z :=
  let (m, ranges) := cached_ranges fs junk m (path_ranges (m_base m) s o) in
  (m, do ranges <- ranges;
      let path := path_observation (m_base m) s o daynumber in
      do uns <- cpp_read_extended FORMATID_OBSERVATION (Z.of_nat (entry_size (length ranges))) (junk path) (sopen fs path);
      Ok (snd (fst uns))).
(* 137-161 TotalObservations; size_t sums are taken modulo 2^64 *)
Record input := { in_source : source; in_observable : observable; in_start : Z; in_end : Z }.
Definition input_days (s : source) (o : observable) (inputs : list input) : list Z :=
  flat_map (fun i => if source_eqb (in_source i) s && observable_eqb (in_observable i) o then zrange (in_start i) (in_end i + 1) else []) inputs.
Fixpoint total_days (fs : files) (junk : junk_buffers) (m : manager) (s : source) (o : observable) (days : list Z) (total : Z) : manager * result Z :=
  match days with
  | [] => (m, Ok total)
  | d :: rest => let (m, n) := total_daily_observations fs junk m s o d in
                 match n with
                 | Ok n => total_days fs junk m s o rest ((total + n) mod 2 ^ 64)
                 | Err e => (m, Err e)
                 end
  end.
Definition total_observations (fs : files) (junk : junk_buffers) (m : manager) (inputs : list input) (s : source) (o : observable) : manager * result Z :=
  total_days fs junk m s o (input_days s o inputs) 0.

(* ---- the Python names of the same files: src/eustace/analysis/fileio/observationsource_rawbinary.py:380-437 *)
Definition py_subdir (base src : string) : string := join_one base (src ++ "/%Y")%string.
Definition py_filename_observations (base src obs : string) (daynumber : Z) : result string :=
  do t <- days_number_to_datetime EPOCH (daynumber * DAY);
  filename_from_patterns [py_subdir base src; (src ++ "_" ++ obs ++ "_%Y%m%d.bin")%string] t.
Definition py_filename_mobile_locations (base src obs : string) (daynumber : Z) : result string :=
  do t <- days_number_to_datetime EPOCH (daynumber * DAY);
  filename_from_patterns [py_subdir base src; (src ++ "_" ++ obs ++ "_mobilelocations_%Y%m%d.bin")%string] t.
Definition py_filename_ranges (base src obs : string) : string := join_one base (src ++ "_" ++ obs ++ "_localcorrelationranges.bin")%string.
(* advanced_standard/examples/inputloader_rawbinary.py:133-141, 165-168 *)
Definition py_fixed_lookup (src : string) : option string :=
  if String.eqb src "surfaceairmodel_land" then Some "locationlookup_satellite.bin"%string
  else if String.eqb src "surfaceairmodel_ocean" then Some "locationlookup_satellite.bin"%string
  else if String.eqb src "surfaceairmodel_ice" then Some "locationlookup_satellite.bin"%string
  else if String.eqb src "insitu_land" then Some "locationlookup_insitu_land.bin"%string
  else None.
Definition py_filename_lookup (base src : string) : option string := option_map (join_one base) (py_fixed_lookup src).

(* ---- break_points.cpp, break_points.h *)

(* 94-111 reject: keeps the elements whose discriminant reaches the threshold; member_vector->at(i) outside is an exception *)
Definition cpp_reject {A} (member : list A) (discriminant : list Qc) (threshold : Qc) : result (list A) :=
  do kept <- mapM (fun id : Z * Qc => if Qle_bool threshold (snd id)
                             then match nth_error member (Z.to_nat (fst id)) with Some x => Ok [x] | None => Err IndexError end
                             else Ok []) (enumerate discriminant);
  Ok (concat kept).
Definition cpp_reject_all (b : breaks) (discriminant : list Qc) (threshold : Qc) : result breaks :=
  do t <- cpp_reject (bk_time b) discriminant threshold;
  do s <- cpp_reject (bk_station b) discriminant threshold;
  do l <- cpp_reject (bk_likelihood b) discriminant threshold;
  Ok {| bk_time := t; bk_station := s; bk_likelihood := l |}.
(* 66-76 apply_base_policy, 78-92 apply_kernel_policy; exp is any function; 54-64 apply_policy *)
Definition cpp_apply_policy (exp : Qc -> Qc) (policy_code : Z) (b : breaks) (threshold decay : Qc) : result breaks :=
  if policy_code =? 0 then cpp_reject_all b (map qz (bk_likelihood b)) threshold
  else if policy_code =? 1 then cpp_reject_all b (map (fun l => exp (qz (- Z.abs (l - 127)) * decay)%Qc) (bk_likelihood b)) threshold
  else Err OperationException.

(* 6-17 stations_collection: copy, std::sort, std::unique *)
Fixpoint insertZ (x : Z) (l : list Z) : list Z := match l with [] => [x] | y :: r => if x <=? y then x :: l else y :: insertZ x r end.
Definition std_sort (l : list Z) : list Z := fold_right insertZ [] l.
Fixpoint std_unique (l : list Z) : list Z :=
  match l with
  | x :: r => match r with y :: _ => if x =? y then std_unique r else x :: std_unique r | [] => [x] end
  | [] => []
  end.
Definition stations_collection (b : breaks) : list Z := std_unique (std_sort (bk_station b)).
(* 27-38 stations_count *)
Definition stations_count (b : breaks) : list Z := map (fun s => zlen (filter (Z.eqb s) (bk_station b))) (stations_collection b).
(* 40-52 filtered_breakpoints *)
Definition filtered_breakpoints (b : breaks) (station : Z) : result (list Z) :=
  do kept <- mapM (fun is => if snd is =? station
                             then match nth_error (bk_time b) (Z.to_nat (fst is)) with Some t => Ok [t] | None => Err IndexError end
                             else Ok []) (enumerate (bk_station b));
  Ok (concat kept).
