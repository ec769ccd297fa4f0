(* What the batch system does with arrays of jobs, directories and trees of files, and the ranges of stored variables. *)
From Coq Require Import QArith String.
From Verif Require Import Base Jobs_Model.
Local Open Scope Z_scope.
Local Open Scope list_scope.

(* a job of an array starts, any number of times, or ends successfully *)
Inductive event := Started (id : nat) (index : Z) | Finished (id : nat) (index : Z).
Definition has_job (a : job_array) (index : Z) : Prop := ja_first a <= index <= ja_last a.
(* the histories that the batch system allows: a job may start when all jobs of the arrays it waits for have ended successfully *)
Inductive history (arrays : list job_array) : list event -> Prop :=
| history_nothing : history arrays []
| history_start h a index : history arrays h -> In a arrays -> has_job a index ->
    (forall b k, In b arrays -> In (ja_id b) (ja_wait a) -> has_job b k -> In (Finished (ja_id b) k) h) -> history arrays (h ++ [Started (ja_id a) index])
| history_finish h id index : history arrays h -> In (Started id index) h -> history arrays (h ++ [Finished id index]).
(* [x] comes before [y] in a list *)
Definition comes_before {A} (x y : A) (l : list A) : Prop := exists l1 l2, l = l1 ++ x :: l2 /\ In y l2.

(* every file and directory is in a directory *)
Definition well_formed (f : filesystem) : Prop := f [] = Some Folder /\ forall x p, f (x :: p) <> None -> f p = Some Folder.
(* the directories on the way to a path, and the path itself *)
Definition leads (q p : path) : Prop := exists l, p = l ++ q.
(* other processes leave what exists, and put no file in the way *)
Definition keeps (others : nat -> filesystem -> filesystem) : Prop :=
  forall n f, well_formed f -> well_formed (others n f) /\ forall q k, f q = Some k -> others n f q = Some k.
Definition no_file_on_the_way (p : path) (f : filesystem) : Prop := forall q, leads q p -> f q <> Some Regular.
Definition friendly (p : path) (others : nat -> filesystem -> filesystem) : Prop :=
  keeps others /\ forall n f, no_file_on_the_way p f -> no_file_on_the_way p (others n f).

(* what is at a path of a tree *)
Fixpoint at_path (n : node) (p : list string) : option node :=
  match p with
  | [] => Some n
  | x :: r => match n with
              | File => None
              | Directory entries => match find (fun e => String.eqb (fst e) x) entries with Some e => at_path (snd e) r | None => None end
              end
  end.
(* the names in each directory are distinct *)
Inductive distinct_names : node -> Prop :=
| distinct_file : distinct_names File
| distinct_directory entries : NoDup (map fst entries) -> (forall e, In e entries -> distinct_names (snd e)) -> distinct_names (Directory entries).

(* the variables of the gridded satellite files: smallest and largest value and the error of storing them *)
Definition stored_ranges : list (string * (Q * Q * Q)) :=
  [("tsmean", (109315 # 1000, 436985 # 1000, 25 # 10000)); ("tsmin", (109315 # 1000, 436985 # 1000, 25 # 10000)); ("tsmax", (109315 # 1000, 436985 # 1000, 25 # 10000));
   ("tsvariance", (0%Q, 10737%Q, 25 # 10000000)); ("tsmean_unc_ran", (0%Q, 65534 # 1000, 5 # 10000)); ("tsmean_unc_loc_atm", (0%Q, 65534 # 1000, 5 # 10000));
   ("tsmean_unc_loc_sfc", (0%Q, 65534 # 1000, 5 # 10000)); ("tsmean_unc_spl", (0%Q, 65534 # 1000, 5 # 10000)); ("tsmean_unc_sys", (0%Q, 65534 # 1000, 5 # 10000))]%string.
Definition within (low high : Q) (v : option Q) : Prop := match v with None => True | Some x => (low <= x <= high)%Q end.
Definition near (error : Q) (v w : option Q) : Prop :=
  match v, w with None, None => True | Some x, Some y => (x - error <= y <= x + error)%Q | _, _ => False end.
