(** Model of nbc/util/ecdsa/_version.py: the version that the ECDSA package
    reports as [ecdsa.__version__] (nbc/util/ecdsa/__init__.py:12).  Texts are
    lists of code points.  Which code points are white space and which are
    digits (\d) is left open, apart from what the theorems assume of them.  The
    calls are those with [verbose] False, so nothing is printed. *)
From Coq Require Import String ZArith List Lia Bool.
From Verif Require Import PyBase.
Import ListNotations.
Open Scope string_scope.
Open Scope list_scope.
Open Scope Z_scope.

Definition text := list Z.

(** [s.lstrip(...)], [s.strip(...)] for a set of characters. *)
Fixpoint lstrip_set (p : Z -> bool) (s : text) : text :=
  match s with [] => [] | c :: r => if p c then lstrip_set p r else s end.
Definition strip_set (p : Z -> bool) (s : text) : text := rev (lstrip_set p (rev (lstrip_set p s))).
(** [s.split(c)] for one character. *)
Fixpoint split_char (c : Z) (s : text) : list text :=
  match s with
  | [] => [[]]
  | x :: r => if x =? c then [] :: split_char c r
              else match split_char c r with p :: q => (x :: p) :: q | [] => [[x]] end
  end.
(** [s.startswith(prefix)]. *)
Fixpoint begins (prefix s : text) : bool :=
  match prefix, s with
  | [], _ => true
  | x :: p, y :: r => (x =? y) && begins p r
  | _ :: _, [] => false
  end.
(** [s.endswith(suffix)]. *)
Definition ends (suffix s : text) : bool := begins (rev suffix) (rev s).
(** [a <= b] for texts. *)
Fixpoint text_leb (a b : text) : bool :=
  match a, b with
  | [], _ => true
  | _ :: _, [] => false
  | x :: p, y :: q => if x =? y then text_leb p q else x <? y
  end.
(** [sorted] of a set; equal members may be listed twice, which no later step
    can see. *)
Fixpoint put (t : text) (l : list text) : list text :=
  match l with [] => [t] | u :: r => if text_leb t u then t :: l else u :: put t r end.
Fixpoint sorted_set (l : list text) : list text :=
  match l with [] => [] | t :: r => put t (sorted_set r) end.

(** A dictionary {"version": ..., "full": ...}; None is the empty one, which is
    false in conditions, or None itself. *)
Record versions : Type := mk_versions { v_version : text; v_full : text }.

(** _version.py:160-161. *)
Definition tag_prefix : text := bs "python-ecdsa-".
Definition parentdir_prefix : text := bs "ecdsa-".
(** _version.py:12-13, as shipped. *)
Definition git_refnames : text := bs " (HEAD, master)".
Definition git_full : text := bs "78eed00dbf36c701919087e3e189a2824c6f3fff".

Section Version.
  Variable space digit : Z -> bool.
  (** [s.strip()]. *)
  Definition strip (s : text) : text := strip_set space s.

  (** _version.py:79-115 [versions_from_expanded_variables]. *)
  Definition versions_from_expanded (refnames full prefix : text) : option versions :=
    let refnames := strip refnames in
    if begins (bs "$Format") refnames then None
    else
      let refs := map strip (split_char 44 (strip_set (fun c => (c =? 40) || (c =? 41)) refnames)) in
      let tags := map (skipn 5) (filter (begins (bs "tag: ")) refs) in
      let tags := match tags with [] => filter (existsb digit) refs | _ => tags end in
      match find (begins prefix) (sorted_set tags) with
      | Some ref => Some (mk_versions (skipn (List.length prefix) ref) (strip full))
      | None => Some (mk_versions (strip full) (strip full))
      end.

  (** What starting one program gives: it is not found (ENOENT), it cannot be
      started, or it prints a text and ends with a code. *)
  Inductive started : Type := NotFound | Unable | Ran (output : text) (code : Z).
  (** _version.py:21-50 [run_command]; [run c] starts the command [c]. *)
  Fixpoint run_command (commands : list text) (run : text -> started) : option text :=
    match commands with
    | [] => None
    | c :: r => match run c with
                | NotFound => run_command r run
                | Unable => None
                | Ran output code => if code =? 0 then Some (strip output) else None
                end
    end.
  (** The surroundings of the package: the platform is Windows, __file__ is
      defined, the directory two levels up has a ".git", what git answers to
      "describe --tags --dirty --always" and to "rev-parse HEAD", and the name of
      that directory. *)
  Record surroundings : Type := mk_around
    { s_win32 : bool; s_file : bool; s_git : bool; s_describe : text -> started; s_revparse : text -> started; s_dirname : text }.
  (** _version.py:117-147 [versions_from_vcs]. *)
  Definition versions_from_vcs (prefix : text) (s : surroundings) : option versions :=
    if negb (s_git s) then None
    else
      let gits := if s_win32 s then [bs "git.cmd"; bs "git.exe"] else [bs "git"] in
      match run_command gits (s_describe s) with
      | None => None
      | Some out =>
          if negb (begins prefix out) then None
          else
            let tag := skipn (List.length prefix) out in
            match run_command gits (s_revparse s) with
            | None => None
            | Some out => let full := strip out in
                          Some (mk_versions tag (if ends (bs "-dirty") tag then full ++ bs "-dirty" else full))
            end
      end.
  (** _version.py:149-158 [versions_from_parentdir]. *)
  Definition versions_from_parentdir (prefix : text) (s : surroundings) : option versions :=
    if negb (begins prefix (s_dirname s)) then None
    else Some (mk_versions (skipn (List.length prefix) (s_dirname s)) []).
  (** _version.py:164-188 [get_versions]; the arguments are the two variables of
      lines 12-13. *)
  Definition get_versions (refnames full : text) (s : surroundings) : versions :=
    let default := mk_versions (bs "unknown") [] in
    match versions_from_expanded refnames full tag_prefix with
    | Some v => v
    | None =>
        if negb (s_file s) then default
        else match versions_from_vcs tag_prefix s with
             | Some v => v
             | None => match versions_from_parentdir parentdir_prefix s with Some v => v | None => default end
             end
    end.
  (** nbc/util/ecdsa/__init__.py:12: [ecdsa.__version__] of the package as shipped. *)
  Definition ecdsa_version (s : surroundings) : text := v_version (get_versions git_refnames git_full s).
End Version.
