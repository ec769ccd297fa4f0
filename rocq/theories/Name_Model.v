(* Model of the search for files by name patterns: src/eumopps/catalogue/namepatterns.py,
   src/eumopps/timeutils/datetime_dictionary.py, src/eumopps/catalogue/storage.py (DataStorageFiles) and
   src/eumopps/catalogue/dataset.py (search), with the part of Python's re that these patterns can reach.
   Not modelled: patterns or file names with further regular expression characters ( * + ^ $ [ ] { } ( ) | \ ). *)
From Coq Require Import String Ascii.
From Verif Require Import Base Work_Model Cat_Model Time_Model.
Local Open Scope Z_scope.
Local Open Scope list_scope.

(* namepatterns.py:11-14, datetime_dictionary.py:7-12: names of fields *)
Inductive field := Year | Month | Day | Hour | Minute | Second | TagA | TagB | TagC.

Definition field_eqb (f g : field) : bool :=
  match f, g with
  | Year, Year | Month, Month | Day, Day | Hour, Hour | Minute, Minute | Second, Second
  | TagA, TagA | TagB, TagB | TagC, TagC => true
  | _, _ => false
  end.

(* namepatterns.py:16-26 EXPRESSION_SUBSTITUTES: letters after % *)
Definition directive (c : ascii) : option field :=
  if Ascii.eqb c "Y" then Some Year else if Ascii.eqb c "m" then Some Month else if Ascii.eqb c "d" then Some Day
  else if Ascii.eqb c "H" then Some Hour else if Ascii.eqb c "M" then Some Minute else if Ascii.eqb c "S" then Some Second
  else if Ascii.eqb c "A" then Some TagA else if Ascii.eqb c "B" then Some TagB else if Ascii.eqb c "C" then Some TagC
  else None.

(* namepatterns.py:56-59: lower-case letters after % *)
Definition lower_directive (c : ascii) : option field :=
  if Ascii.eqb c "a" then Some TagA else if Ascii.eqb c "b" then Some TagB else if Ascii.eqb c "c" then Some TagC else None.

(* namepatterns.py:16-26 EXPRESSION_SUBSTITUTES: so many numerals, or (None) '.*' *)
Definition width (f : field) : option nat :=
  match f with Year => Some 4%nat | Month | Day | Hour | Minute | Second => Some 2%nat | TagA | TagB | TagC => None end.

(* A dictionary of captured strings. *)
Definition fields := list (field * string).
Definition lookup (d : fields) (f : field) : option string :=
  match find (fun p => field_eqb (fst p) f) d with Some p => Some (snd p) | None => None end.

(* str.lower() for ASCII *)
Definition lower_char (c : ascii) : ascii :=
  let n := nat_of_ascii c in if (65 <=? Z.of_nat n) && (Z.of_nat n <=? 90) then ascii_of_nat (n + 32) else c.
Fixpoint lower (s : string) : string :=
  match s with EmptyString => EmptyString | String c s' => String (lower_char c) (lower s') end.

(* Regular expressions that arise: a literal, '.', a named group of numerals, a named group '.*'. *)
Inductive rx := RLit (c : ascii) | RAny | RNum (f : field) (n : nat) | RStar (f : field).

(* Text of known values is inserted unescaped: a dot in it matches any character. *)
Fixpoint value_rx (v : string) : list rx :=
  match v with
  | EmptyString => []
  | String c v' => (if Ascii.eqb c "." then RAny else RLit c) :: value_rx v'
  end.

Definition field_rx (known : fields) (f : field) : list rx :=
  match lookup known f with
  | Some v => value_rx v
  | None => [match width f with Some n => RNum f n | None => RStar f end]
  end.

(* namepatterns.py:29-61 make_search_expression. The replacements are made one after the other in the code, here in
   one pass from the left: the sequences %x cannot overlap, and values that contain % are not modelled. *)
Fixpoint make_search_expression (pattern : string) (known : fields) : list rx :=
  match pattern with
  | EmptyString => []
  | String c p =>
      if Ascii.eqb c "." then RLit c :: make_search_expression p known
      else if Ascii.eqb c "?" then RAny :: make_search_expression p known
      else if Ascii.eqb c "%" then
        match p with
        | String d p' =>
            match directive d with
            | Some f => field_rx known f ++ make_search_expression p' known
            | None =>
                match lower_directive d with
                | Some f => match lookup known f with
                            | Some v => value_rx (lower v) ++ make_search_expression p' known
                            | None => RLit c :: make_search_expression p known
                            end
                | None => RLit c :: make_search_expression p known
                end
            end
        | EmptyString => [RLit c]
        end
      else RLit c :: make_search_expression p known
  end.

Definition groups (e : list rx) : list field :=
  flat_map (fun r => match r with RNum f _ | RStar f => [f] | _ => [] end) e.

Fixpoint has_duplicate (l : list field) : bool :=
  match l with [] => false | f :: l' => existsb (field_eqb f) l' || has_duplicate l' end.

(* re.compile: redefinition of a group name is sre_constants.error (here ModuleError). *)
Definition compile (e : list rx) : result (list rx) :=
  if has_duplicate (groups e) then Err ModuleError else Ok e.

Definition NEWLINE : ascii := ascii_of_nat 10.

(* '[0-9]' n times *)
Fixpoint take_numerals (n : nat) (s : string) : option (string * string) :=
  match n with
  | O => Some (EmptyString, s)
  | S n' => match s with
            | String c s' => match digit_value c with
                             | Some _ => match take_numerals n' s' with Some (a, b) => Some (String c a, b) | None => None end
                             | None => None
                             end
            | EmptyString => None
            end
  end.

(* '.*': all ways, longest first *)
Fixpoint splits (s : string) : list (string * string) :=
  match s with
  | EmptyString => [(EmptyString, EmptyString)]
  | String c s' => (if Ascii.eqb c NEWLINE then [] else map (fun ab => (String c (fst ab), snd ab)) (splits s'))
                   ++ [(EmptyString, s)]
  end.

(* All ways in which the expression matches at the beginning of a string, in backtracking order: captured groups and
   the remaining string. *)
Fixpoint matches (e : list rx) (s : string) : list (fields * string) :=
  match e with
  | [] => [([], s)]
  | RLit c :: e' => match s with String d s' => if Ascii.eqb c d then matches e' s' else [] | EmptyString => [] end
  | RAny :: e' => match s with String d s' => if Ascii.eqb d NEWLINE then [] else matches e' s' | EmptyString => [] end
  | RNum f n :: e' => match take_numerals n s with
                      | Some (a, b) => map (fun m => ((f, a) :: fst m, snd m)) (matches e' b)
                      | None => []
                      end
  | RStar f :: e' => flat_map (fun ab => map (fun m => ((f, fst ab) :: fst m, snd m)) (matches e' (snd ab))) (splits s)
  end.

(* matcher.match: groupdict and what follows the match *)
Definition re_match (e : list rx) (s : string) : option (fields * string) := hd_error (matches e s).

(* namepatterns.py:64-69 hash_string_list *)
Definition hash_string_list (values : list string) : string := String.concat "" values.

(* An extract: file name and captured fields. namepatterns.py:98-103 ExtractedTextFields *)
Definition extract := (string * fields)%type.

Section Search.
  (* The order of d.values() in a Python 2 dictionary with the given keys (they are always inserted in the same order),
     and the order in which the dictionary of groups is traversed. *)
  Variable dict_order : list field -> list field.
  Variable traversal : list (string * (fields * list (string * string))) -> list (string * (fields * list (string * string))).

  (* namepatterns.py:72-74 hash_string_dictionary *)
  Definition hash_string_dictionary (d : fields) : string :=
    hash_string_list (map (fun f => match lookup d f with Some v => v | None => EmptyString end) (dict_order (map fst d))).

  (* namepatterns.py:131-136: append to the group with that key, or a new group with these values *)
  Fixpoint insert_group (key : string) (values : fields) (entry : string * string)
           (gs : list (string * (fields * list (string * string)))) :=
    match gs with
    | [] => [(key, (values, [entry]))]
    | (k, (v, es)) :: gs' => if String.eqb k key then (k, (v, es ++ [entry])) :: gs'
                             else (k, (v, es)) :: insert_group key values entry gs'
    end.

  (* namepatterns.py:122-136 *)
  Definition parent_groups (e : list rx) (names : list string) : list (string * (fields * list (string * string))) :=
    fold_left (fun gs name => match re_match e name with
                              | Some (values, remaining) => insert_group (hash_string_dictionary values) values (name, remaining) gs
                              | None => gs
                              end) names [].

  (* namepatterns.py:144-151 for one group. The order dict(parent, **child): fields of the child override. *)
  Definition child_matches (childpattern : string) (g : fields * list (string * string)) : result (list extract) :=
    do e <- compile (make_search_expression childpattern (fst g));
    Ok (flat_map (fun entry => match re_match e (snd entry) with
                               | Some (values, _) => [(fst entry, values ++ fst g)]
                               | None => []
                               end) (snd g)).

  (* namepatterns.py:106-154 nested_search_patterns *)
  Definition nested_search_patterns (patterns : list string) (names : list string) : result (list extract) :=
    match patterns with
    | [] => Err ValueError
    | [child] =>
        child_matches child ([], map (fun name => (name, name)) names)
    | [parent; child] =>
        do e <- compile (make_search_expression parent []);
        do found <- mapM (fun kg => child_matches child (snd kg)) (traversal (parent_groups e names));
        Ok (concat found)
    | _ => Err ValueError
    end.

  (* int(): of numerals *)
  Fixpoint int_of (acc : Z) (s : string) : Z :=
    match s with
    | EmptyString => acc
    | String c s' => int_of (10 * acc + match digit_value c with Some d => d | None => 0 end) s'
    end.

  (* datetime_dictionary.py:17-29 parse. Fields of dates hold numerals, since they come from matches.  A missing year
     is a TypeError of datetime(). *)
  Definition parse_fields (d : fields) : result (option Z) :=
    let get f := option_map (int_of 0) (lookup d f) in
    let or0 f := match get f with Some n => n | None => 0 end in
    match get Year, get Month, get Day, get Hour, get Minute, get Second with
    | None, None, None, None, None, None => Ok None
    | None, _, _, _, _, _ => Err TypeError
    | Some y, None, _, _, _, _ => do t <- mk_datetime y 1 1 (or0 Hour) (or0 Minute) (or0 Second); Ok (Some t)
    | Some y, Some m, None, _, _, _ => do t <- mk_datetime y m 1 (or0 Hour) (or0 Minute) (or0 Second); Ok (Some t)
    | Some y, Some m, Some dd, _, _, _ => do t <- mk_datetime y m dd (or0 Hour) (or0 Minute) (or0 Second); Ok (Some t)
    end.

  (* dataset.py:158-168: tags in sequence, up to the first gap *)
  Definition tags_of (d : fields) : list string :=
    match lookup d TagA with
    | None => []
    | Some a => a :: match lookup d TagB with
                     | None => []
                     | Some b => b :: match lookup d TagC with None => [] | Some c => [c] end
                     end
    end.

  (* dataset.py:109-118 append_results: matches (name, time, tags) and value_errors; only ValueError is caught *)
  Fixpoint append_results (l : list extract) : result (list (string * option Z * list string) * list string) :=
    match l with
    | [] => Ok ([], [])
    | (name, d) :: l' =>
        match parse_fields d with
        | Ok t => do r <- append_results l'; Ok ((name, t, tags_of d) :: fst r, snd r)
        | Err ValueError => do r <- append_results l'; Ok (fst r, name :: snd r)
        | Err e => Err e
        end
    end.

  (* dataset.py:71-78 CatalogueDataSubset.search with storage.py:34-37: also the names whose candidates are flagged *)
  Definition search_subset (patterns : list string) (names : list string)
    : result (list (string * option Z * list string) * list string * list string) :=
    do extracts <- nested_search_patterns patterns names;
    do r <- append_results extracts;
    Ok (fst r, snd r, map fst extracts).

  (* dataset.py:37-49 CatalogueDataSet.search: results of each subset, and the names that matched none *)
  Definition search_dataset (subsets : list (list string)) (names : list string)
    : result (list (list (string * option Z * list string) * list string) * list string) :=
    do found <- mapM (fun patterns => search_subset patterns names) subsets;
    Ok (map fst found,
        filter (fun name => negb (existsb (fun r => existsb (String.eqb name) (snd r)) found)) names).
End Search.
