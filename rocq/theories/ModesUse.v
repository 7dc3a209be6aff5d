(** How callers use the mode objects and the feeders: sequences of calls, and
    the arguments the classes document as proper.  Used to state properties. *)
From Coq Require Import ZArith List.
From Verif Require Import PyBase PyVal AesModel AesModes.
Import ListNotations.
Open Scope list_scope.
Open Scope Z_scope.

(** A sequence of calls on one object: the outputs and the final state. *)
Fixpoint run (call : mode -> bytes -> res (bytes * mode)) (m : mode) (calls : list bytes) : res (list bytes * mode) :=
  match calls with
  | [] => Ok ([], m)
  | c :: r => let! x := call m c in let! y := run call (snd x) r in Ok (fst x :: fst y, snd y)
  end.
Definition key_size_ok (key : bytes) : Prop := zlen key = 16 \/ zlen key = 24 \/ zlen key = 32.
(** Which arguments are proper, and which calls a mode accepts. *)
Definition iv_ok (iv : option bytes) : Prop := match iv with None => True | Some v => wf_bytes v end.
Definition args_ok (args : mode_args) : Prop :=
  match args with
  | NewECB | NewCTR _ => True
  | NewCBC iv | NewOFB iv => iv_ok iv
  | NewCFB iv n => iv_ok iv /\ 0 <= n <= 16
  end.
Definition segment_of (n : Z) : Z := if n =? 0 then 1 else n.
Definition accepts (args : mode_args) (c : bytes) : Prop :=
  match args with
  | NewECB | NewCBC _ => zlen c = 16
  | NewCFB _ n => zlen c mod segment_of n = 0
  | NewOFB _ | NewCTR _ => True
  end.
(** All the data, chunk by chunk, then the flush. *)
Fixpoint feed_all (py2 : bool) (f : feeder) (chunks : list bytes) : res (bytes * feeder) :=
  match chunks with
  | [] => Ok ([], f)
  | c :: r => let! x := feeder_feed py2 f c in let! y := feed_all py2 (snd x) r in Ok (fst x ++ fst y, snd y)
  end.
Definition feed_and_flush (py2 : bool) (f : feeder) (chunks : list bytes) : res bytes :=
  let! r := feed_all py2 f chunks in
  let! s := feeder_feed py2 (snd r) [] in Ok (fst r ++ fst s).
