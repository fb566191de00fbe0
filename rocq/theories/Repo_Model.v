(** Projects kept in git: GithubRepo (core/parse/github_repo.py:82-250) and the loading of a project
    (core/parse/project_loader.py:17-112), with the files they leave on disk.
    Every call of the operating system or of git may fail: [fail c n] says whether the n-th call, of kind [c], raises.
    The theorems hold for every [fail], that is for every execution. *)
From Coq Require Import List String Ascii Bool Arith.
From Verif Require Import PyBase PyStr.
Import ListNotations.
Local Open Scope string_scope.
Local Open Scope list_scope.

(** Kinds of calls *)
Inductive call := COpen | CWrite | CChmod | CRemove | CClone | CList | CGit | CRmtree | CRead.
(** Exceptions, by their source *)
Inductive fault := FCall (c : call) | FMissing | FNoKey | FNotFetched | FType | FUnbound.
(** What is at a path: a key file with what was written of the key, or a folder with a clone *)
Inductive content := Key (written : option string) | Tree.
Definition disk := list (string * content).
(** git commands that act on the clone or the remote *)
Inductive gitcmd := GCreate (b : string) | GCheckout (b : string) | GAdd | GCommit (m : string) | GPull (b : string) | GMerge (b : string) | GPush (b : string) | GDelete (b : string).
(** The disk, the number of calls made, and the git commands that succeeded with the paths that existed at the time *)
Record world := World { w_disk : disk; w_calls : nat; w_git : list (gitcmd * list string) }.
Inductive out (A : Type) := Done (a : A) | Raised (f : fault).
Arguments Done {A} a. Arguments Raised {A} f.
Definition M (A : Type) := world -> out A * world.
Definition ret {A} (a : A) : M A := fun w => (Done a, w).
Definition raise {A} (f : fault) : M A := fun w => (Raised f, w).
Definition andthen {A B} (m : M A) (k : A -> M B) : M B := fun w => match m w with (Done a, w') => k a w' | (Raised f, w') => (Raised f, w') end.
Notation "'do' x <- m ; k" := (andthen m (fun x => k)) (at level 61, x name, m at next level, right associativity).
(** try: m  except Exception as e: h e *)
Definition handle {A} (m : M A) (h : fault -> M A) : M A := fun w => match m w with (Done a, w') => (Done a, w') | (Raised f, w') => h f w' end.

Definition without (p : string) (d : disk) : disk := List.filter (fun e => negb (String.eqb (fst e) p)) d.
Definition put (p : string) (c : content) (d : disk) : disk := (p, c) :: without p d.
Definition set_disk (d : disk) (w : world) : world := World d (w_calls w) (w_git w).

Section Repo.
  Variable fail : call -> nat -> bool.
  Variable partial : nat -> option string.   (* what a write that fails has written *)
  Variable leaves : nat -> bool.             (* a clone that fails leaves its folder behind *)
  Variable fresh : nat -> string.            (* utils.generate_uuid: the name of a new key file *)

  (** One call: does it fail?  [n] is its number *)
  Definition ask (c : call) : M (bool * nat) := fun w => (Done (fail c (w_calls w), w_calls w), World (w_disk w) (S (w_calls w)) (w_git w)).
  Definition attempt (c : call) : M unit := do x <- ask c ; if fst x then raise (FCall c) else ret tt.
  Definition on_disk (f : disk -> disk) : M unit := fun w => (Done tt, set_disk (f (w_disk w)) w).
  Definition exists_path (p : string) : M bool := fun w => (Done (match assoc p (w_disk w) with Some _ => true | None => false end), w).

  (** os.remove(p) *)
  Definition remove (p : string) : M unit :=
    do there <- exists_path p ;
    if there : bool then do _ <- attempt CRemove ; on_disk (without p) else raise FMissing.
  (** _write_private_key, 216-231.  The file is opened in binary mode, so writing a str (the annotated type) is a failing write that has written nothing.  The file is open while chmod and remove are called; closing it cannot fail. *)
  Definition write_key (k : string) (path : option string) : M string :=
    do x <- ask COpen ;
    let p := match path with Some p => p | None => fresh (snd x) end in
    if fst x then raise (FCall COpen)
    else
      do _ <- on_disk (put p (Key None)) ;
      do x <- ask CWrite ;
      if fst x then do _ <- on_disk (put p (Key (partial (snd x)))) ; raise (FCall CWrite)
      else
        do _ <- on_disk (put p (Key (Some k))) ;
        do _ <- handle (attempt CChmod) (fun _ => remove p) ;
        ret p.
  (** git.Repo.clone_from *)
  Definition clone (dest : string) : M unit :=
    do x <- ask CClone ;
    if fst x then do _ <- on_disk (fun d => if leaves (snd x) then put dest Tree d else d) ; raise (FCall CClone)
    else on_disk (put dest Tree).
  (** shutil.rmtree *)
  Definition rmtree (p : string) : M unit := do _ <- attempt CRmtree ; on_disk (without p).
  Definition is_dir (p : string) : M bool := fun w => (Done (match assoc p (w_disk w) with Some Tree => true | _ => false end), w).
  (** _fetch_branch_options, 234-241: a failure is printed *)
  Definition branch_options (listed : list string) (branch : string) : M (list string) :=
    handle (do _ <- attempt CList ; ret listed) (fun _ => ret [branch]).

  (** The remote: what git ls-remote prints, read by _parse_ls_remote *)
  Variable listed : list string.
  (** _fetch_github_repo_ssh, 194-209.  The inner "except Exception as e" unbinds e when it ends, so "raise e" is then an UnboundLocalError *)
  Definition fetch_ssh (dest branch k : string) : M (list string * option string) :=
    do p <- write_key k None ;
    do o <- handle (do _ <- clone dest ; do o <- branch_options listed branch ; do _ <- remove p ; ret o)
                   (fun e => do ok <- handle (do _ <- remove p ; ret true) (fun _ => ret false) ; if ok : bool then raise e else raise FUnbound) ;
    ret (o, Some p).
  (** _fetch_github_repo_https, 186-191 *)
  Definition fetch_https (dest branch : string) : M (list string * option string) :=
    do there <- is_dir dest ;
    do _ <- (if there : bool then rmtree dest else ret tt) ;
    do _ <- clone dest ;
    do o <- branch_options listed branch ;
    ret (o, None).
  (** fetch_github_repo, 171-183: is_ssh is repo_url.startswith("git@"), 84 *)
  Definition fetch (url dest branch : string) (key : option string) : M (list string * option string) :=
    if starts_with "git@" url then
      match key with None => raise FNoKey | Some k => fetch_ssh dest branch k end
    else fetch_https dest branch.

  (** One git command of the clone *)
  Definition git (c : gitcmd) : M unit :=
    do _ <- attempt CGit ; fun w => (Done tt, World (w_disk w) (w_calls w) (w_git w ++ [(c, map fst (w_disk w))])).
  Fixpoint git_all (l : list gitcmd) : M unit := match l with [] => ret tt | c :: r => do _ <- git c ; git_all r end.
  (** create_branch .. squash_and_merge, 105-156 *)
  Inductive op := OCreate (b : string) | ODelete (b : string) | OCommit (m b : string) | OPull (from to : string) | OMerge (from to : string) (m : option string).
  Definition commands (o : op) : list gitcmd :=
    match o with
    | OCreate b => [GCreate b; GCheckout b; GPush b]
    | ODelete b => [GDelete b]
    | OCommit m b => [GCheckout b; GAdd; GCommit m; GPush b]
    | OPull a b => [GCheckout b; GPull a; GPush b]
    | OMerge a b m => [GCheckout b; GMerge a; GCommit (match m with Some x => if String.eqb x "" then ("Squash and merge " ++ a ++ " into " ++ b)%string else x | None => ("Squash and merge " ++ a ++ " into " ++ b)%string end); GPush b]
    end.
  (** _ssh_wrapped, 158-169; [file] is self._file_path, which only fetch sets *)
  Definition ssh_wrapped (file : option (option string)) (key : option string) (o : op) : M unit :=
    match key with
    | Some k =>
        if String.eqb k "" then git_all (commands o)
        else match file with
             | None => raise FNotFetched
             | Some None => git_all (commands o)
             | Some (Some p) =>
                 do _ <- write_key k (Some p) ;
                 handle (do _ <- git_all (commands o) ; remove p) (fun e => do _ <- remove p ; raise e)
             end
    | None => git_all (commands o)
    end.

  (** GithubRepo.delete, 98-103 *)
  Definition delete (dest : string) : M unit := do there <- is_dir dest ; if there : bool then rmtree dest else ret tt.
  (** ProjectLoader.load, 25-28, and _load_project, 44-70, of a repository that is not local; [kind] is what get_repo_type answers.
      The connections are read before, and do not touch the disk. *)
  Definition load (url dest branch : string) (key : option string) (kind : string) : M unit :=
    do _ <- fetch url dest branch key ;
    do _ <- attempt CRead ;                                      (* get_dbt_path and get_repo_type read the project file *)
    if String.eqb kind "metricflow" || String.eqb kind "metrics_layer" then
      do _ <- attempt CRead ;                                    (* reader.load() *)
      delete dest
    else raise FType.
End Repo.

(** _parse_ls_remote, 244-250 *)
Fixpoint find_after (sep s : string) : option string :=
  match strip_prefix sep s with
  | Some r => Some r
  | None => match s with "" => None | String _ r => find_after sep r end
  end.
(** s.split(sep)[-1] *)
Fixpoint last_piece (fuel : nat) (sep s : string) : string :=
  match fuel with 0 => s | S n => match find_after sep s with None => s | Some r => last_piece n sep r end end.
Definition newline : ascii := ascii_of_nat 10.
Definition parse_ls_remote (s : string) : list string :=
  flat_map (fun l => if contains "/heads/" l then [last_piece (S (String.length l)) "/heads/" l] else []) (split_char newline s).

(** ProjectLoader._is_local, 109-112, and _get_repo_from_location, 90-93 *)
Definition is_local (location : string) : bool :=
  let l := lower location in negb ((contains "http://" l || contains "https://" l) || starts_with "git@" l).
