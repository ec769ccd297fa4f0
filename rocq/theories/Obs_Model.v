(* Model of observation sets and of the raw binary files they are kept in:
   src/eustace/analysis/fileio/observationsource_rawbinary.py, fileio/locationpointers.py, observationsource.py,
   preparedailyfixed.py and advanced_standard/fileio/observation_source_surface_effects.py.
   Files are lists of bytes.  A 64-bit number of a file is the integer of its bits (a "word"); float arithmetic on measurements
   is exact rational arithmetic where it matters (mean of two sets, times, thresholds).  An exception raised with the bare
   class Exception is OperationException here. *)
From Coq Require Import QArith Qcanon String Ascii.
From Verif Require Import Base Grid_Model.
Local Open Scope Z_scope.
Local Open Scope list_scope.

(* ---- bytes *)

Definition byte := Z.
(* little-endian bytes of a word, as numpy.tofile writes them *)
Fixpoint le (n : nat) (v : Z) : list byte := match n with O => [] | S n' => v mod 256 :: le n' (v / 256) end.
Fixpoint unle (bs : list byte) : Z := match bs with [] => 0 | b :: r => b + 256 * unle r end.
Definition word_bytes (v : Z) : list byte := le 8 v.
Definition bytes_of (s : string) : list byte := map (fun a => Z.of_nat (nat_of_ascii a)) (list_ascii_of_string s).

(* observationsource_rawbinary.py:23-33, locationpointers.py:10-14 *)
Definition FORMATID_OBSERVATION := bytes_of "EUSTACEOBSN00001".
Definition FORMATID_LOCATION_LOOKUP := bytes_of "EUSTACELOCN00001".
Definition FORMATID_LOCAL_CORRELATION_RANGE := bytes_of "EUSTACECORN00001".
Definition FORMATID_LOCATION_POINTERS := bytes_of "EUSTACELOCP00001".
Definition CODEID := bytes_of "NOCODEVERSION   ".

(* numpy.fromfile: as many whole records as there are *)
Fixpoint chunks (n : nat) (size : nat) (data : list byte) : list (list byte) :=
  match n with O => [] | S n' => firstn size data :: chunks n' size (skipn size data) end.
Definition fromfile (size : nat) (data : list byte) : list (list byte) := chunks (length data / size) size data.
(* the words of a record *)
Definition words (data : list byte) : list Z := map unle (fromfile 8 data).

Fixpoint bytes_eqb (a b : list byte) : bool :=
  match a, b with [], [] => true | x :: a', y :: b' => (x =? y) && bytes_eqb a' b' | _, _ => false end.

(* ---- RawBinaryReader.read_header_from_stream (43-52); returns what follows *)
Definition read_header (formatid : list byte) (data : list byte) : result (list byte) :=
  if bytes_eqb (firstn 16 data) formatid then Ok (skipn 16 (skipn 16 data)) else Err OperationException.
(* RawBinaryLocationCategoryReader.read_header_from_stream (78-86); uuid.UUID(bytes=...) wants sixteen bytes *)
Definition read_header_uuid (formatid : list byte) (data : list byte) : result (list byte * list byte) :=
  do rest <- read_header formatid data;
  let u := firstn 16 rest in
  if (length u =? 16)%nat then Ok (u, skipn 16 rest) else Err ValueError.

(* RawBinaryReader.count_remaining (55-68): Python 2 division of integers *)
Definition count_remaining (rest : list byte) (record_size : Z) : Z := zlen rest / record_size.

(* ---- observation sets: one entry of each list per observation (observationsource.py:10-17).  The time is one number for
   the whole set (a numpy scalar) or one per observation. *)
Inductive times := TScalar (t : Qc) | TArray (ts : list Qc).
Record observations := { o_mask : list bool; o_time : times; o_location : list Z; o_measurement : list Z; o_unc : list Z; o_cor : list (list Z) }.

Definition nthZ (l : list Z) (i : nat) : Z := nth i l 0.
Definition time_at (t : times) (i : nat) : Qc := match t with TScalar t => t | TArray ts => nth i ts 0%Qc end.

(* write_day (240): positions not masked and of the day *)
Definition valid_positions (o : observations) (daynumber : Z) : list nat :=
  filter (fun i => negb (nth i (o_mask o) true) && (trunc (time_at (o_time o) i) =? daynumber)) (seq 0 (length (o_mask o))).

(* populate_output_structure (257-265), build_dtype (215-223): location, measurement, uncorrelated error, correlated errors *)
Definition record_words (o : observations) (i : nat) : list Z :=
  nthZ (o_location o) i :: nthZ (o_measurement o) i :: nthZ (o_unc o) i :: map (fun c => nthZ c i) (o_cor o).
Definition encode (ws : list Z) : list byte := flat_map word_bytes ws.

(* write_day (225-255): the bytes of the file *)
Definition write_day (location_uuid : list byte) (o : observations) (daynumber : Z) : list byte :=
  FORMATID_OBSERVATION ++ CODEID ++ location_uuid ++ flat_map (fun i => encode (record_words o i)) (valid_positions o daynumber).

(* build_dtype (215-223) itemsize *)
Definition record_size (num_ranges : nat) : nat := 8 * (3 + num_ranges).

(* read_contents (124-141): the uuid asked for is not looked at *)
Definition read_contents (num_ranges : nat) (data : list byte) (verify_location_uuid : list byte) : result (list (list Z)) :=
  do ur <- read_header_uuid FORMATID_OBSERVATION data;
  Ok (map words (fromfile (record_size num_ranges) (snd ur))).

(* read_day (143-171) with a file *)
Definition column (k : nat) (rows : list (list Z)) : list Z := map (fun r => nthZ r k) rows.
Definition read_day (num_ranges : nat) (data : list byte) (verify_location_uuid : list byte) (daynumber : Z) : result observations :=
  do contents <- read_contents num_ranges data verify_location_uuid;
  Ok {| o_mask := map (fun _ => false) contents; o_time := TScalar (qz daynumber); o_location := column 0 contents;
        o_measurement := column 1 contents; o_unc := column 2 contents; o_cor := map (fun k => column (3 + k) contents) (seq 0 num_ranges) |}.

(* read_location_ids (173-180) *)
Definition read_location_ids (num_ranges : nat) (data : list byte) (verify_location_uuid : list byte) : result (list Z) :=
  do contents <- read_contents num_ranges data verify_location_uuid; Ok (column 0 contents).

(* read_observation_count (182-200) *)
Definition read_observation_count (num_ranges : nat) (data : list byte) : result Z :=
  do ur <- read_header_uuid FORMATID_OBSERVATION data;
  Ok (count_remaining (snd ur) (Z.of_nat (record_size num_ranges))).

(* LocationLookupRawBinaryWriter.write (311-332), Reader.read (285-302): latitudes and longitudes *)
Record lookup := { lk_uuid : list byte; lk_table : list (Z * Z) }.
Definition write_lookup (d : lookup) : list byte :=
  FORMATID_LOCATION_LOOKUP ++ CODEID ++ lk_uuid d ++ flat_map (fun ll => encode [fst ll; snd ll]) (lk_table d).
Definition read_lookup (data : list byte) : result lookup :=
  do ur <- read_header_uuid FORMATID_LOCATION_LOOKUP data;
  Ok {| lk_uuid := fst ur; lk_table := map (fun r => (nthZ (words r) 0, nthZ (words r) 1)) (fromfile 16 (snd ur)) |}.
(* read_uuid_and_count (97-113) *)
Definition read_uuid_and_count (data : list byte) : result (list byte * Z) :=
  do ur <- read_header_uuid FORMATID_LOCATION_LOOKUP data;
  Ok (fst ur, count_remaining (snd ur) 16).

(* LocalCorrelationRangeRawBinaryWriter.write (367-378), Reader.read (342-358) *)
Definition write_ranges (ranges : list Z) : list byte := FORMATID_LOCAL_CORRELATION_RANGE ++ CODEID ++ encode ranges.
Definition read_ranges (data : list byte) : result (list Z) :=
  do rest <- read_header FORMATID_LOCAL_CORRELATION_RANGE data; Ok (words rest).

(* ---- src/eustace/analysis/preparedailyfixed.py:26-60 run_day, from the check of locations on.  num reads a word as a number;
   locs are the source's own coordinates. *)
Definition within_tolerance (num : Z -> Qc) (a b : Z * Z) : bool :=
  let tol := (1 / qz 10000)%Qc in
  let close x y := Qle_bool (x - y)%Qc tol && Qle_bool (y - x)%Qc tol in
  close (num (fst a)) (num (fst b)) && close (num (snd a)) (num (snd b)).
Definition prepare_day (num : Z -> Qc) (locationfile : list byte) (locs : list (Z * Z)) (dailydata : observations) (daynumber : Z) : result (list byte) :=
  do reference <- read_lookup locationfile;
  do diffs <- mapM (fun l => match nth_error (lk_table reference) (Z.to_nat l), nth_error locs (Z.to_nat l) with
                             | Some a, Some b => Ok (within_tolerance num a b)
                             | _, _ => Err IndexError
                             end) (o_location dailydata);
  match diffs with
  | [] => Err ValueError (* max() of an empty array *)
  | _ => if forallb (fun d => d) diffs then Ok (write_day (lk_uuid reference) dailydata daynumber) else Err ValueError
  end.

(* ---- src/eustace/analysis/fileio/locationpointers.py *)

(* 18-30 and 32-46: for each location, pairs of day number and file offset *)
Record pointers := { lp_uuid : list byte; lp_ranges : nat; lp_lists : list (list (Z * Z)) }.
Definition pointers_init (lookupfile rangesfile : list byte) : result pointers :=
  do uc <- read_uuid_and_count lookupfile;
  do ranges <- read_ranges rangesfile;
  Ok {| lp_uuid := fst uc; lp_ranges := length ranges; lp_lists := repeat [] (Z.to_nat (snd uc)) |}.
Fixpoint push (i : nat) (x : Z * Z) (l : list (list (Z * Z))) : result (list (list (Z * Z))) :=
  match l, i with
  | [], _ => Err IndexError
  | a :: r, O => Ok ((a ++ [x]) :: r)
  | a :: r, S i' => do r' <- push i' x r; Ok (a :: r')
  end.
Definition append_ids (daynumber : Z) (size : Z) (ids : list Z) (start : Z) (l : list (list (Z * Z))) : result (list (list (Z * Z))) :=
  foldM (fun l il => push (Z.to_nat (snd il)) (daynumber, 56 + size * fst il) l) l (combine (zrange start (start + zlen ids)) ids).
Definition append_day (p : pointers) (file : list byte) (daynumber : Z) : result pointers :=
  do ids <- read_location_ids (lp_ranges p) file (lp_uuid p);
  do l <- append_ids daynumber (Z.of_nat (record_size (lp_ranges p))) ids 0 (lp_lists p);
  Ok {| lp_uuid := lp_uuid p; lp_ranges := lp_ranges p; lp_lists := l |}.

(* 48-94 write.  Offsets are computed in double precision in the code: exact below 2^53. *)
Fixpoint offset_table (at_ : Z) (l : list (list (Z * Z))) : list byte :=
  match l with [] => [] | a :: r => word_bytes at_ ++ word_bytes (zlen a) ++ offset_table (at_ + 16 * zlen a) r end.
Definition write_pointers (p : pointers) : list byte :=
  let n := zlen (lp_lists p) in
  FORMATID_LOCATION_POINTERS ++ CODEID ++ lp_uuid p ++ word_bytes n ++
  (if n >? 0 then offset_table (56 + 16 * n) (lp_lists p) ++ flat_map (fun a => flat_map (fun df => encode [fst df; snd df]) a) (lp_lists p) else []).

(* src/eustace/analysis/preparelocationpointers.py:26-45 run.  The day number of a file (there taken from its name) comes with it. *)
Definition run_pointers (lookupfile rangesfile : list byte) (days : list (list byte * Z)) : result (list byte) :=
  do p <- pointers_init lookupfile rangesfile;
  do p <- foldM (fun p fd => append_day p (fst fd) (snd fd)) p days;
  Ok (write_pointers p).

(* 101-142 read_pointer_records.  The module uses the name uuid (115) without importing it: [imported] says whether the name is
   there; in the code it is not. *)
Definition read_pointer_records (imported : bool) (data : list byte) (verify_location_uuid : list byte) (location_id : Z) : result (list (Z * Z)) :=
  if negb (bytes_eqb (firstn 16 data) FORMATID_LOCATION_POINTERS) then Err OperationException else
  if negb imported then Err NameError else
  let u := firstn 16 (skipn 32 data) in
  if negb (length u =? 16)%nat then Err ValueError else
  if negb (bytes_eqb u verify_location_uuid) then Err OperationException else
  let location_count := unle (firstn 8 (skipn 48 data)) in
  if (location_id <? 0) || (location_id >=? location_count) then Err OperationException else
  let entry := skipn (Z.to_nat (16 * location_id)) (skipn 56 data) in
  let record_offset := unle (firstn 8 entry) in
  let record_count := unle (firstn 8 (skipn 8 entry)) in
  let rest := skipn (Z.to_nat record_offset) data in
  Ok (map (fun r => (nthZ (words r) 0, nthZ (words r) 1)) (firstn (Z.to_nat record_count) (fromfile 16 rest))).
Definition uuid_imported : bool := false. (* locationpointers.py:1-8 *)

(* ---- src/eustace/analysis/observationsource.py, sets as used by mean and append; measurements as numbers *)

Record obset := { s_mask : list bool; s_time : times; s_location : list Z; s_measurement : list Qc; s_unc : list Qc; s_cor : list (list Qc) }.

Definition isin (l m : list Z) : list nat := filter (fun i => existsb (Z.eqb (nth i l 0)) m) (seq 0 (length l)).
Definition take {A} (d : A) (l : list A) (is : list nat) : list A := map (fun i => nth i l d) is.
Definition times_eqb (a b : times) : bool :=
  match a, b with
  | TScalar s, TScalar t => Qc_eq_bool s t
  | TScalar s, TArray ts => forallb (Qc_eq_bool s) ts
  | TArray ts, TScalar t => forallb (fun s => Qc_eq_bool s t) ts
  | TArray ss, TArray ts => (length ss =? length ts)%nat && forallb (fun st => Qc_eq_bool (fst st) (snd st)) (combine ss ts)
  end.
(* arithmetic mean of two arrays; mean of squares (the code takes its square root) *)
Definition mean2 (a b : list Qc) : list Qc := map (fun xy => ((fst xy + snd xy) * (1 / qz 2))%Qc) (combine a b).
Definition meansq2 (a b : list Qc) : list Qc := map (fun xy => ((fst xy * fst xy + snd xy * snd xy) * (1 / qz 2))%Qc) (combine a b).

(* 24-64 mean.  Entries that are masked are given the same formula (in the code they hold unspecified numbers).  Locations
   repeated in one set only make numpy broadcast and then fail: an error here. *)
Definition mean_sets (a b : obset) : result obset :=
  let ra := isin (s_location a) (s_location b) in
  let rb := isin (s_location b) (s_location a) in
  if negb (length ra =? length rb)%nat then Err ValueError else
  if negb (forallb (fun xy => fst xy =? snd xy) (combine (take 0 (s_location a) ra) (take 0 (s_location b) rb))) then Err ValueError else
  if negb (times_eqb (s_time a) (s_time b)) then Err ValueError else
  if negb (length (s_cor a) =? length (s_cor b))%nat then Err ValueError else
  Ok {| s_mask := map (fun xy => fst xy || snd xy) (combine (take true (s_mask a) ra) (take true (s_mask b) rb));
        s_time := s_time a;
        s_location := take 0 (s_location a) ra;
        s_measurement := mean2 (take 0%Qc (s_measurement a) ra) (take 0%Qc (s_measurement b) rb);
        s_unc := meansq2 (take 0%Qc (s_unc a) ra) (take 0%Qc (s_unc b) rb);
        s_cor := map (fun ab => meansq2 (take 0%Qc (fst ab) ra) (take 0%Qc (snd ab) rb)) (combine (s_cor a) (s_cor b)) |}.

(* 66-77 append: the object is changed step by step, so an error leaves it part changed.  "self.time != other.time" on arrays
   of two or more entries is an error too (ambiguous truth value). *)
Definition scalar_time (t : times) : option Qc := match t with TScalar t => Some t | TArray [t] => Some t | TArray _ => None end.
Definition same_scalar_time (a b : times) : bool :=
  match scalar_time a, scalar_time b with Some s, Some t => Qc_eq_bool s t | _, _ => false end.
Definition append_sets (a b : obset) (locationoffset : Z) : obset * result unit :=
  let a1 := {| s_mask := s_mask a ++ s_mask b; s_time := s_time a; s_location := s_location a; s_measurement := s_measurement a; s_unc := s_unc a; s_cor := s_cor a |} in
  if negb (same_scalar_time (s_time a) (s_time b)) then (a1, Err ValueError) else
  let a2 := {| s_mask := s_mask a1; s_time := s_time a; s_location := s_location a ++ map (fun l => l + locationoffset) (s_location b);
               s_measurement := s_measurement a ++ s_measurement b; s_unc := s_unc a ++ s_unc b; s_cor := s_cor a |} in
  if negb (length (s_cor a) =? length (s_cor b))%nat then (a2, Err ValueError) else
  ({| s_mask := s_mask a2; s_time := s_time a; s_location := s_location a2; s_measurement := s_measurement a2; s_unc := s_unc a2;
      s_cor := map (fun xy => fst xy ++ snd xy) (combine (s_cor a) (s_cor b)) |}, Ok tt).

(* ---- break points, observationsource.py:79-167: one entry of each list per break *)
Record breaks := { bk_time : list Z; bk_station : list Z; bk_likelihood : list Z }.
Definition keep_at (b : breaks) (is : list nat) : breaks :=
  {| bk_time := take 0 (bk_time b) is; bk_station := take 0 (bk_station b) is; bk_likelihood := take 0 (bk_likelihood b) is |}.
(* 149-156 *)
Definition apply_base_policy (b : breaks) (threshold : Qc) : breaks :=
  keep_at b (filter (fun i => Qle_bool threshold (qz (nth i (bk_likelihood b) 0))) (seq 0 (length (bk_likelihood b)))).
(* 158-167; exp is any function *)
Definition apply_kernel_policy (exp : Qc -> Qc) (b : breaks) (threshold decay : Qc) : breaks :=
  keep_at b (filter (fun i => Qle_bool threshold (exp (- decay * qz (Z.abs (nth i (bk_likelihood b) 0%Z - 127)))%Qc)) (seq 0 (length (bk_likelihood b)))).
(* 136-147 *)
Definition apply_policy (exp : Qc -> Qc) (code : string) (b : breaks) (threshold decay : Qc) : result breaks :=
  if String.eqb code "HARD_CUTOFF" then Ok (apply_base_policy b threshold)
  else if String.eqb code "LAPLACE_KERNEL" then Ok (apply_kernel_policy exp b threshold decay)
  else Err ValueError.

(* ---- observation_source_surface_effects.py:9-94 insitu_land_covariate_effect *)

(* x != numpy.roll(x, 1) *)
Definition changes (l : list Z) : list bool := map (fun xy => negb (fst xy =? snd xy)) (combine l (last l 0 :: l)).
Definition mask_keep {A} (m : list bool) (l : list A) : list A := map snd (filter (fun bx => fst bx) (combine m l)).
(* numpy.argmin: first position of the smallest *)
Fixpoint argmin (l : list Z) : nat :=
  match l with
  | [] | [_] => O
  | x :: r => let k := argmin r in if x <=? nth k r 0 then O else S k
  end.
Definition covariate_effect (time : Z) (station_indices : list Z) (b : breaks) : result (option (list (nat * nat))) :=
  let break_stations := map (fun s => s - 1) (bk_station b) in
  let time_differences := map (fun t => t - time) (bk_time b) in
  let later := map (fun d => d >? 0) time_differences in
  let adjustment_indices := mask_keep later (seq 0 (length break_stations)) in
  let break_stations := mask_keep later break_stations in
  let time_differences := mask_keep later time_differences in
  let most_recent := changes break_stations in
  let pick {A} (d : A) (l : list A) : list A :=
    if negb (length most_recent =? 0)%nat && forallb negb most_recent then [nth (argmin time_differences) l d] else mask_keep most_recent l in
  let active := pick O adjustment_indices in
  let stations := pick 0 break_stations in
  let station_restriction := isin station_indices stations in
  let break_restriction := isin stations station_indices in
  if negb (length station_restriction =? length break_restriction)%nat then Err ValueError else
  match combine station_restriction (take O active break_restriction) with
  | [] => Ok None
  | effect => Ok (Some effect)
  end.
