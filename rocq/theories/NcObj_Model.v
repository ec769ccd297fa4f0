(* Model of src/eumopps/netcdfobjects/netcdfobjects.py: Python objects saved to and loaded from a NetCDF file.
   Simplifications: Python integers are one type (long and numpy integers are not distinguished), booleans and unicode
   strings are left out, floats are opaque 64-bit patterns (as integers), object dictionaries are association lists in
   iteration order, and constructing a class from its parameters is recorded as class name and parameters. *)
From Coq Require Import String Ascii.
From Verif Require Import Base Work_Model Cat_Model Time_Model Name_Model.
Local Open Scope Z_scope.
Local Open Scope list_scope.

(* Python values: VObj (Some c) is an instance of class c, VObj None a dictionary. *)
Inductive value :=
| VNone | VStr (s : string) | VInt (z : Z) | VFloat (bits : Z) | VTime (t : Z)
| VList (l : list value) | VObj (cls : option string) (members : list (string * value)).

(* Dictionaries *)
Definition get {A} (d : list (string * A)) (k : string) : option A :=
  match find (fun p => String.eqb (fst p) k) d with Some p => Some (snd p) | None => None end.
Fixpoint put {A} (k : string) (a : A) (d : list (string * A)) : list (string * A) :=
  match d with
  | [] => [(k, a)]
  | (k', a') :: d' => if String.eqb k' k then (k, a) :: d' else (k', a') :: put k a d'
  end.

(* NetCDF content. Cells that are masked hold the fill value of the library. *)
Inductive variable :=
| VarTime0 (n : Z)                      (* i8 without dimensions, with the units of TIMEBASE *)
| VarInt (cells : list Z) | VarTime (cells : list Z) | VarFloat (cells : list Z)
| VarInt2 (rows : list (list Z)) | VarFloat2 (rows : list (list Z))
| VarStr (rows : list string)           (* characters, one row for each string *)
| VarStr2 (rows : list (list string)).

Inductive group := Group (attributes : list (string * value)) (dimensions : list (string * Z))
                         (variables : list (string * variable)) (groups : list (string * group)).

(* What a save adds to a group. *)
Record piece := { p_attrs : list (string * value); p_dims : list (string * Z);
                  p_vars : list (string * variable); p_subs : list (string * group) }.
Definition nothing : piece := {| p_attrs := []; p_dims := []; p_vars := []; p_subs := [] |}.
Definition join (p q : piece) : piece :=
  {| p_attrs := p_attrs p ++ p_attrs q; p_dims := p_dims p ++ p_dims q;
     p_vars := p_vars p ++ p_vars q; p_subs := p_subs p ++ p_subs q |}.

(* netCDF4.default_fillvals *)
Definition FILL_INT : Z := -9223372036854775806.
Definition FILL_FLOAT : Z := 5160562223013167104.   (* bit pattern of 9.969209968386869e+36 *)

(* netcdfobjects.py:13-24 *)
Definition CLASSID : string := "python_class".
Definition CONVENTIONS : string := "Conventions".
Definition LIST_COUNT : string := "list_count".

Definition NUL : ascii := ascii_of_nat 0.

(* '{1:08d}' *)
Fixpoint decimals (w : nat) (n : Z) : string :=
  match w with O => EmptyString | S w' => (decimals w' (n / 10) ++ String (digit (n mod 10)) EmptyString)%string end.
Fixpoint decimal_width (fuel : nat) (w : nat) (n : Z) : nat :=
  match fuel with O => w | S f => if n <? 10 ^ Z.of_nat w then w else decimal_width f (S w) n end.
Definition format08 (n : Z) : string := decimals (decimal_width (S (Z.to_nat n)) 8 n) n.
(* netcdfobjects.py:19 LISTITEM_OBJECT_SUFFIX *)
Definition item_name (name : string) (i : Z) : string := (name ++ "_" ++ format08 i)%string.

(* ---- types: netcdfobjects.py:26-31, 206-263 *)
Inductive ty := TStr | TInt | TFloat | TTime.
Definition has_type (t : ty) (v : value) : bool :=
  match t, v with TStr, VStr _ | TInt, VInt _ | TFloat, VFloat _ | TTime, VTime _ => true | _, _ => false end.
Definition is_none (v : value) : bool := match v with VNone => true | _ => false end.
Definition SIMPLE : list ty := [TStr; TInt; TFloat; TTime].

(* 206-208 *)
Definition is_type (v : value) (ts : list ty) : bool := existsb (fun t => has_type t v) ts.
(* 210-220: one of the types for all *)
Definition is_list_of (v : value) (ts : list ty) : bool :=
  match v with VList l => existsb (fun t => forallb (fun e => is_none e || has_type t e) l) ts | _ => false end.
(* 222-226 *)
Definition is_list2d_of (v : value) (ts : list ty) : bool :=
  match v with VList l => forallb (fun e => is_none e || is_list_of e ts) l | _ => false end.
(* 228-233 *)
Definition is_simple_value (v : value) : bool := is_type v SIMPLE || is_list_of v SIMPLE || is_list2d_of v [TStr].
(* 235-248 *)
Definition is_simple_object (v : value) : bool :=
  match v with VObj _ ms => forallb (fun km => is_none (snd km) || is_simple_value (snd km)) ms | _ => false end.
(* 250-252 *)
Definition is_list_of_simple_objects (v : value) : bool :=
  match v with VList l => forallb (fun e => is_none e || is_simple_object e) l | _ => false end.
(* 254-256 *)
Definition is_list_of_objects (v : value) : bool :=
  match v with VList l => forallb (fun e => match e with VObj _ _ => true | _ => false end) l | _ => false end.

(* ---- lists of simple values *)

Fixpoint str_pad (n : nat) (s : string) : string :=
  match n with
  | O => EmptyString
  | S n' => match s with EmptyString => String NUL (str_pad n' EmptyString) | String c s' => String c (str_pad n' s') end
  end.
(* Trailing nulls are not part of numpy strings. *)
Fixpoint str_strip (s : string) : string :=
  match s with
  | EmptyString => EmptyString
  | String c s' => match str_strip s' with
                   | EmptyString => if Ascii.eqb c NUL then EmptyString else String c EmptyString
                   | r => String c r
                   end
  end.

Definition text (v : value) : string := match v with VStr s => s | _ => EmptyString end.
Definition max_of (l : list nat) : nat := fold_right Nat.max 0%nat l.

(* dtype=numpy.int64: OverflowError (here ValueError) beyond 64 bits *)
Definition int_cell (v : value) : result Z :=
  match v with
  | VInt z => if (- 2 ^ 63 <=? z) && (z <? 2 ^ 63) then Ok z else Err ValueError
  | _ => Ok FILL_INT
  end.
Definition float_cell (v : value) : Z := match v with VFloat b => b | _ => FILL_FLOAT end.
Definition time_cell (v : value) : Z := match v with VTime t => seconds_datetime_to_number EPOCH t | _ => FILL_INT end.

Definition elements (v : value) : list value := match v with VList l => l | _ => [] end.

(* A row with n columns. *)
Fixpoint fill_row {A} (n : nat) (blank : A) (l : list A) : list A :=
  match n with
  | O => []
  | S n' => match l with [] => blank :: fill_row n' blank [] | a :: l' => a :: fill_row n' blank l' end
  end.

(* 472-492 save_string_list *)
Definition save_string_list (key : string) (l : list value) : piece :=
  let max_length := S (max_of (map (fun v => String.length (text v)) l)) in
  {| p_attrs := []; p_dims := [(("strlen_" ++ key)%string, Z.of_nat max_length)];
     p_vars := [(key, VarStr (map (fun v => str_pad max_length (text v)) l))]; p_subs := [] |}.

(* 494-524 save_string_list2d *)
Definition save_string_list2d (key : string) (l : list value) : piece :=
  let lengths := flat_map (fun v => flat_map (fun e => match e with VStr EmptyString | VNone => [] | _ => [String.length (text e)] end) (elements v)) l in
  match lengths with
  | [] => nothing
  | _ => let max_length := S (max_of lengths) in
         let columns := max_of (map (fun v => length (elements v)) l) in
         {| p_attrs := []; p_dims := [(key, Z.of_nat columns); (("strlen_" ++ key)%string, Z.of_nat max_length)];
            p_vars := [(key, VarStr2 (map (fun v => map (str_pad max_length) (fill_row columns EmptyString (map text (elements v)))) l))];
            p_subs := [] |}
  end.

(* 527-541 save_numeric_list2d *)
Definition save_numeric_list2d (key : string) (dim : string) (l : list value) (cells : list value -> result (list Z)) (fill : Z)
                               (var : list (list Z) -> variable) : result piece :=
  let columns := max_of (map (fun v => length (elements v)) l) in
  do rows <- mapM (fun v => cells (elements v)) l;
  Ok {| p_attrs := []; p_dims := [((dim ++ "2")%string, Z.of_nat columns)];
        p_vars := [(key, var (map (fill_row columns fill) rows))]; p_subs := [] |}.

(* 409-453 save_list_of_simple_values *)
Definition save_list_of_simple_values (key : string) (l : list value) (dimension : option string) : result piece :=
  let own := match dimension with None => [(key, zlen l)] | Some _ => [] end in
  let dim := match dimension with None => key | Some d => d end in
  let with_own p := join {| p_attrs := []; p_dims := own; p_vars := []; p_subs := [] |} p in
  let one var := {| p_attrs := []; p_dims := []; p_vars := [(key, var)]; p_subs := [] |} in
  if forallb is_none l then Ok (with_own nothing)
  else if is_list_of (VList l) [TStr] then Ok (with_own (save_string_list key l))
  else if is_list_of (VList l) [TInt] then do cells <- mapM int_cell l; Ok (with_own (one (VarInt cells)))
  else if is_list_of (VList l) [TFloat] then Ok (with_own (one (VarFloat (map float_cell l))))
  else if is_list_of (VList l) [TTime] then Ok (with_own (one (VarTime (map time_cell l))))
  else if is_list2d_of (VList l) [TStr] then Ok (with_own (save_string_list2d key l))
  else if is_list2d_of (VList l) [TInt] then
    do p <- save_numeric_list2d key dim l (mapM int_cell) FILL_INT VarInt2; Ok (with_own p)
  else if is_list2d_of (VList l) [TFloat] then
    do p <- save_numeric_list2d key dim l (fun r => Ok (map float_cell r)) FILL_FLOAT VarFloat2; Ok (with_own p)
  else Err ValueError.

(* ---- groups *)

Fixpoint has_dup (l : list string) : bool :=
  match l with [] => false | s :: l' => existsb (String.eqb s) l' || has_dup l' end.

(* createDimension and createVariable fail (RuntimeError, here ModuleError) if the name is in use.  createGroup with a
   name in use would return the existing group: modelled as failure too. *)
Definition make_group (pieces : list piece) : result group :=
  let p := fold_right join nothing pieces in
  if has_dup (map fst (p_dims p)) || has_dup (map fst (p_vars p) ++ map fst (p_subs p)) then Err ModuleError
  else Ok (Group (p_attrs p) (p_dims p) (p_vars p) (p_subs p)).

Definition attr (key : string) (v : value) : piece := {| p_attrs := [(key, v)]; p_dims := []; p_vars := []; p_subs := [] |}.
Definition class_piece (c : option string) : piece := match c with Some c => attr CLASSID (VStr c) | None => nothing end.
Definition sub_piece (key : string) (g : group) : piece := {| p_attrs := []; p_dims := []; p_vars := []; p_subs := [(key, g)] |}.

(* 258-303 save_simple_python_object: one member *)
Definition save_simple_member (key : string) (v : value) : result piece :=
  match v with
  | VNone => Ok nothing
  | VTime t => Ok {| p_attrs := []; p_dims := []; p_vars := [(key, VarTime0 (seconds_datetime_to_number EPOCH t))]; p_subs := [] |}
  | VStr _ | VInt _ | VFloat _ => Ok (attr key v)
  | VList l => if is_list_of v SIMPLE || is_list2d_of v [TStr] then save_list_of_simple_values key l None else Err ValueError
  | VObj _ _ => Err ValueError
  end.
(* 258-303 save_simple_python_object *)
Definition save_simple_object (key : string) (c : option string) (ms : list (string * value)) : result piece :=
  do ps <- mapM (fun km => save_simple_member (fst km) (snd km)) ms;
  do g <- make_group (class_piece c :: ps);
  Ok (sub_piece key g).

(* 306-327 save_list_of_simple_python_objects, for a list that is not empty *)
Definition member_of (k : string) (v : value) : result value :=
  match v with VObj _ ms => match get ms k with Some a => Ok a | None => Err KeyError end | _ => Err TypeError end.
Definition save_records (key : string) (l : list value) : result piece :=
  match l with
  | VObj c ms :: _ =>
      do ps <- mapM (fun km => do column <- mapM (member_of (fst km)) l;
                               save_list_of_simple_values (fst km) column (Some LIST_COUNT)) ms;
      do g <- make_group ({| p_attrs := []; p_dims := [(LIST_COUNT, zlen l)]; p_vars := []; p_subs := [] |} :: class_piece c :: ps);
      Ok (sub_piece key g)
  | _ => Err AttributeError
  end.

Section MapM.
  Context {A B : Type} (f : A -> result B).
  Fixpoint map_result (l : list A) : result (list B) :=
    match l with [] => Ok [] | x :: l' => do y <- f x; do ys <- map_result l'; Ok (y :: ys) end.
End MapM.

(* 346-361: the list dimension and one group for each item *)
Fixpoint item_pieces (key : string) (i : Z) (gs : list group) : list piece :=
  match gs with [] => [] | g :: gs' => sub_piece (item_name key i) g :: item_pieces key (i + 1) gs' end.

(* 363-407 save_object, with 329-344 save_complex_python_object and 346-361 save_list_of_complex_python_objects *)
Fixpoint save_object (key : string) (v : value) {struct v} : result piece :=
  match v with
  | VNone => Ok nothing
  | VStr _ | VInt _ | VFloat _ => Ok (attr key v)
  | VTime _ => Err TypeError                     (* setncattr of a datetime *)
  | VList [] => Ok nothing
  | VList l =>
      if is_list_of v SIMPLE || is_list2d_of v [TStr] || is_list2d_of v [TInt] || is_list2d_of v [TFloat]
      then save_list_of_simple_values key l None
      else if is_list_of_simple_objects v then save_records key l
      else if is_list_of_objects v then
        do gs <- map_result (fun e => match e with
                                      | VObj c ms =>
                                          do ps <- map_result (fun km => match km with (k, m) => save_object k m end) ms;
                                          make_group (class_piece c :: ps)
                                      | _ => Err ValueError
                                      end) l;
        Ok (fold_right join nothing ({| p_attrs := []; p_dims := [(key, zlen l)]; p_vars := []; p_subs := [] |} :: item_pieces key 0 gs))
      else Err ValueError
  | VObj c ms =>
      if is_simple_object v then save_simple_object key c ms
      else do ps <- map_result (fun km => match km with (k, m) => save_object k m end) ms;
           do g <- make_group (class_piece c :: ps);
           Ok (sub_piece key g)
  end.

(* catalogue/fileio/formatnetcdf.py:127-133 save, with nc_open_for_save 37-41 *)
Definition save_file (v : value) : result group :=
  match v with
  | VObj c ms =>
      do ps <- mapM (fun km => save_object (fst km) (snd km)) ms;
      make_group (attr CONVENTIONS (VStr "CF-1.6") :: class_piece c :: ps)
  | _ => Err AttributeError
  end.

(* ---- loading *)

Definition unmasked (fill : Z) (cells : list Z) : list Z := filter (fun z => negb (z =? fill)) cells.

(* 53-114 read_variable *)
Definition read_variable (x : variable) : result value :=
  match x with
  | VarTime0 n => do t <- seconds_number_to_datetime EPOCH n; Ok (VTime t)
  | VarInt cells => Ok (VList (map VInt (unmasked FILL_INT cells)))
  | VarTime cells => do ts <- mapM (seconds_number_to_datetime EPOCH) (unmasked FILL_INT cells); Ok (VList (map VTime ts))
  | VarFloat cells => Ok (VList (map VFloat (unmasked FILL_FLOAT cells)))
  | VarInt2 rows => Ok (VList (map (fun r => VList (map VInt (unmasked FILL_INT r))) rows))
  | VarFloat2 rows => Ok (VList (map (fun r => VList (map VFloat (unmasked FILL_FLOAT r))) rows))
  | VarStr rows => Ok (VList (map (fun s => VStr (str_strip s)) rows))
  | VarStr2 rows => Ok (VList (map (fun r => VList (map (fun s => VStr (str_strip s)) r)) rows))
  end.

(* 188-204 makeobject. The class name is looked up and called with the parameters. *)
Definition remove_key (k : string) (d : list (string * value)) : list (string * value) :=
  filter (fun p => negb (String.eqb (fst p) k)) d.
Definition makeobject (parameters : list (string * value)) : result value :=
  match get parameters CLASSID with
  | Some (VStr c) => Ok (VObj (Some c) (remove_key CONVENTIONS (remove_key CLASSID parameters)))
  | Some _ => Err AttributeError
  | None => Ok (VObj None parameters)
  end.

(* 143-149: records[index][name] = value *)
Fixpoint set_column (k : string) (vs : list value) (records : list (list (string * value))) : result (list (list (string * value))) :=
  match vs, records with
  | [], _ => Ok records
  | _ :: _, [] => Err IndexError
  | v :: vs', r :: rs => do rs' <- set_column k vs' rs; Ok (put k v r :: rs')
  end.
Fixpoint set_columns (vars : list (string * variable)) (records : list (list (string * value))) : result (list (list (string * value))) :=
  match vars with
  | [] => Ok records
  | (k, x) :: vars' => do v <- read_variable x;
                       do rs <- match v with VList vs => set_column k vs records | _ => Err TypeError end;
                       set_columns vars' rs
  end.

(* 158-160 *)
Fixpoint set_variables (vars : list (string * variable)) (ps : list (string * value)) : result (list (string * value)) :=
  match vars with
  | [] => Ok ps
  | (k, x) :: vars' => do v <- read_variable x; set_variables vars' (put k v ps)
  end.

(* 162-174: lists of sub-objects; also the names of the groups used *)
Definition load_items (dim : string * Z) (loaded : list (string * result value)) : result (list value) :=
  mapM (fun i => match get loaded (item_name (fst dim) i) with Some r => r | None => Err KeyError end) (zrange 0 (snd dim)).
Fixpoint set_lists (dims : list (string * Z)) (loaded : list (string * result value)) (ps : list (string * value)) (used : list string)
  : result (list (string * value) * list string) :=
  match dims with
  | [] => Ok (ps, used)
  | d :: dims' =>
      match get loaded (item_name (fst d) 0) with
      | None => set_lists dims' loaded ps used
      | Some _ => do vs <- load_items d loaded;
                  set_lists dims' loaded (put (fst d) (VList vs) ps) (used ++ map (item_name (fst d)) (zrange 0 (snd d)))
      end
  end.
(* 176-179 *)
Fixpoint set_objects (loaded : list (string * result value)) (used : list string) (ps : list (string * value)) : result (list (string * value)) :=
  match loaded with
  | [] => Ok ps
  | (k, r) :: loaded' => if existsb (String.eqb k) used then set_objects loaded' used ps
                         else do v <- r; set_objects loaded' used (put k v ps)
  end.

(* 116-186 load_object *)
Fixpoint load_object (g : group) : result value :=
  match g with
  | Group attrs dims vars subs =>
      let parameters := fold_left (fun d p => put (fst p) (snd p) d) attrs [] in
      match get dims LIST_COUNT with
      | Some n =>
          do records <- set_columns vars (repeat parameters (Z.to_nat n));
          do objects <- mapM makeobject records;
          Ok (VList objects)
      | None =>
          let loaded := map (fun s => match s with (k, sg) => (k, load_object sg) end) subs in
          do ps <- set_variables vars parameters;
          do pu <- set_lists dims loaded ps [];
          do ps' <- set_objects loaded (snd pu) (fst pu);
          makeobject ps'
      end
  end.
