(** The file store over a tree of directories and files, with keys that are any text.  Models FileSystemStorage
    (oca/src/data_storage.rs 194-287) and what it uses of [std::path] and [std::fs] on Unix: [PathBuf::push] with absolute
    and empty paths, "." and "..", trailing slashes, NUL bytes, names of more than 255 bytes.  Simplifications: no symbolic
    links, permissions, full disks or limit on the length of a whole path. *)
From Verif Require Export Storage.

(** A position is the list of names that leads to it, innermost first; [None] is a directory, [Some v] a file with content [v].
    The root is not in the map. *)
(** The disk below [std::fs::{read, write, create_dir_all}], data_storage.rs 254-286. *)
Notation tree := (gmap (list string) (option string)).

(** The slash of a path. *)
(** Separator of the paths of oca/src/data_storage.rs 257-281. *)
Definition slash : ascii := "/".
(** [Path::is_absolute] on Unix: in [PathBuf::push], data_storage.rs 257, 259, 276, 281. *)
Definition absolute (s : string) : bool := match s with String c _ => Ascii.eqb c slash | EmptyString => false end.
(** Does the text end with a slash? *)
(** [PathBuf::push], called in oca/src/data_storage.rs 257-281. *)
Fixpoint ends_slash (s : string) : bool :=
  match s with EmptyString => false | String c EmptyString => Ascii.eqb c slash | String _ r => ends_slash r end.
(** [PathBuf::push], called in data_storage.rs 257, 259, 276, 281: an absolute path replaces the old one; a separator is added
    unless the old one is empty or ends with one. *)
Definition push_path (p k : string) : string :=
  if absolute k then k else if String.eqb p "" || ends_slash p then (p +:+ k)%string else (p +:+ "/" +:+ k)%string.
(** The texts between the slashes. *)
(** Path resolution of the operating system, below data_storage.rs 258-285. *)
Fixpoint comps (s : string) : list string :=
  match s with
  | EmptyString => [""]
  | String c r => if Ascii.eqb c slash then "" :: comps r
                  else match comps r with h :: t => String c h :: t | [] => [] end
  end.
(** A NUL byte anywhere in a path is an error before the system is asked ([std::fs]). *)
(** Paths given to the system in oca/src/data_storage.rs 258-285. *)
Fixpoint has_nul (s : string) : bool := match s with EmptyString => false | String c r => Nat.eqb (nat_of_ascii c) 0 || has_nul r end.
(** The longest name of a file (NAME_MAX). *)
(** A limit of the system below oca/src/data_storage.rs 282. *)
Definition name_max : nat := 255.

(** Where a path leads: a directory, a file, a free place in a directory, nowhere (ENOENT), another error. *)
(** Path resolution of the operating system. *)
(** Results of the system calls in oca/src/data_storage.rs 258-285. *)
Inductive place := AtDir (p : list string) | AtFile (p : list string) (v : string) | Free (p : list string) | NoEntry | Wrong.
(** Path resolution of the operating system, below [try_exists], [read], [write] (data_storage.rs 258-285). *)
Fixpoint walk (t : tree) (p : list string) (l : list string) : place :=
  match l with
  | [] => AtDir p
  | c :: l' =>
    if String.eqb c "" || String.eqb c "." then walk t p l'
    else if String.eqb c ".." then walk t (tail p) l'
    else if Nat.ltb name_max (String.length c) then Wrong
    else match t !! (c :: p) with
         | Some None => walk t (c :: p) l'
         | Some (Some v) => match l' with [] => AtFile (c :: p) v | _ => Wrong end
         | None => match l' with [] => Free (c :: p) | _ => NoEntry end
         end
  end.

Section Files.
(** The working directory of the process: where relative paths start. *)
Variable cwd : list string.

(** Where a path starts. *)
(** Path resolution below oca/src/data_storage.rs 258-285. *)
Definition start (s : string) : list string := if absolute s then [] else cwd.
(** Path resolution of the operating system, with the checks of [std]. *)
(** Path resolution below oca/src/data_storage.rs 258-285. *)
Definition locate (t : tree) (s : string) : place := if has_nul s then Wrong else if String.eqb s "" then NoEntry else walk t (start s) (comps s).
(** [Path::try_exists], data_storage.rs 258, 277: an error other than "not found" is returned (and unwrapped there). *)
Definition path_exists (t : tree) (s : string) : outcome bool :=
  match locate t s with AtDir _ | AtFile _ _ => Ok true | Free _ | NoEntry => Ok false | Wrong => Panic end.
(** [std::fs::read(..).ok()], data_storage.rs 260. *)
Definition read_path (t : tree) (s : string) : option string := match locate t s with AtFile _ v => Some v | _ => None end.
(** [std::fs::write], data_storage.rs 282. *)
Definition write_path (s v : string) (t : tree) : outcome tree :=
  match locate t s with AtFile p _ | Free p => Ok (<[p := Some v]> t) | _ => Err ["io error"] end.
(** [std::fs::create_dir_all], data_storage.rs 278: every missing directory on the way. *)
Fixpoint make_dirs (t : tree) (p : list string) (l : list string) : option tree :=
  match l with
  | [] => Some t
  | c :: l' =>
    if String.eqb c "" || String.eqb c "." then make_dirs t p l'
    else if String.eqb c ".." then make_dirs t (tail p) l'
    else if Nat.ltb name_max (String.length c) then None
    else match t !! (c :: p) with
         | Some None => make_dirs t (c :: p) l'
         | Some (Some _) => None
         | None => make_dirs (<[c :: p := None]> t) (c :: p) l'
         end
  end.
(** data_storage.rs 278, with its [unwrap]. *)
Definition create_dirs (s : string) (t : tree) : outcome tree :=
  if has_nul s then Panic else match make_dirs t (start s) (comps s) with Some t' => Ok t' | None => Panic end.

(** data_storage.rs 254-267; [dir] is the configured path. *)
Definition file_get (dir : option string) (n : namespace) (k : string) (t : tree) : outcome (option string) :=
  match dir with
  | None => Err ["File path is required"]
  | Some d =>
    let p := push_path d (ns_name n) in
    let! e := path_exists t p in
    Ok (if e then read_path t (push_path p k) else None)
  end.
(** data_storage.rs 273-286. *)
Definition file_insert (dir : option string) (n : namespace) (k v : string) (t : tree) : outcome tree :=
  match dir with
  | None => Err ["File path is required"]
  | Some d =>
    let p := push_path d (ns_name n) in
    let! e := path_exists t p in
    let! t1 := (if e then Ok t else create_dirs p t) in
    write_path (push_path p k) v t1
  end.
End Files.
