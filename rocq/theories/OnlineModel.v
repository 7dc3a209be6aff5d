(** Model of nbc/node/__init__.py (port mappings), the serving loop of
    basenode.py, nbc/util/bootstrap.py (DNS seeder) and the block height
    helpers and number formatting of nbc/util/__init__.py. *)
From Coq Require Import String ZArith List Lia Bool.
From Verif Require Import PyBase PyVal.
Import ListNotations.
Open Scope string_scope.
Open Scope list_scope.
Open Scope Z_scope.

(** ** Port mappings (node/__init__.py) *)

(** The mappings of the gateway for one protocol: the host and port to which an
    external port is redirected. *)
Definition gateway : Type := Z -> option (text * Z).
(** A mapping added, or deleted (None). *)
Definition gw_set (p : Z) (t : option (text * Z)) (g : gateway) : gateway := fun q => if q =? p then t else g q.
(** What the platform, the library and the gateway answer: whether miniupnpc
    was imported (lines 5-10: only on darwin), whether discover() returns,
    whether the calls of lines 35-48 return, our address in the local network,
    the result of addportmapping (None: an exception). *)
Record upnp_env : Type := mk_upnp { ue_library : bool; ue_discovers : bool; ue_gateway : bool; ue_lan : text; ue_accepts : option bool }.
(** node/__init__.py:17-30 [_init_upnp]; the state is whether the global [_upnp] is set.
    The name miniupnpc is unbound without the import; line 21 is not inside
    the try. *)
Definition init_upnp (e : upnp_env) (ready : bool) : res bool :=
  if ready then Ok true else if negb (ue_library e) then Raise NameError else Ok (ue_discovers e).
(** node/__init__.py:44-48: the loop stops at 65536, so [fuel] is 65536 - port. *)
Fixpoint free_port (fuel : nat) (g : gateway) (eport : Z) : Z :=
  match fuel with
  | O => eport
  | S k => match g eport with None => eport | Some _ => free_port k g (eport + 1) end
  end.
(** node/__init__.py:32-56 [add_portmap].  Result: whether [_upnp] is set, the mappings,
    whether the object is returned (None otherwise).  Exceptions after line 33
    are caught, among them AttributeError for None. *)
Definition add_portmap (e : upnp_env) (ready : bool) (g : gateway) (port : Z) : res (bool * gateway * bool) :=
  let! ready := init_upnp e ready in
  if negb (ready && ue_gateway e) then Ok (ready, g, false)
  else
    let eport := free_port (Z.to_nat (65536 - port)) g port in
    match ue_accepts e with
    | Some true => Ok (ready, gw_set eport (Some (ue_lan e, port)) g, true)
    | _ => Ok (ready, g, false)
    end.
(** node/__init__.py:58-67 [remove_portmap]; [deletes]: deleteportmapping succeeds. *)
Definition remove_portmap (deletes ready : bool) (g : gateway) (port : Z) : gateway :=
  if ready && deletes then gw_set port None g else g.

(** basenode.py:127-139 [serve_forever]: how the loop ends is an input
    (StopNode or another exception); the events are the loop and the closing
    of the node. *)
Inductive served : Type := SLoop | SClose.
(** basenode.py:131-136: how the loop ends. *)
Inductive loop_end : Type := StopNode | Failed (e : exn).
(** basenode.py:127-139. *)
Definition serve_forever (listen : bool) (port : Z) (e : upnp_env) (deletes ready : bool) (g : gateway) (stop : loop_end) : list served * gateway * res unit :=
  let finish (ready : bool) (g : gateway) :=
    ([SLoop; SClose], if listen then remove_portmap deletes ready g port else g,
     match stop with StopNode => Ok tt | Failed x => Raise x end) in
  if listen then
    match add_portmap e ready g port with
    | Raise x => ([], g, Raise x)
    | Ok (ready, g, _) => finish ready g
    end
  else finish ready g.

(** ** DNS seeder (bootstrap.py) *)

(** One event is a section of code under the lock: the thread of seed [i]
    appends its next address (lines 54-55), [pop] with the index drawn by
    random.choice (lines 40-44), [len] (lines 36-38). *)
Inductive seed_event : Type := SFound (i : nat) | SPop (choice : nat) | SLen.
(** What one event returns. *)
Inductive seed_output : Type := ONothing | OAddress (a : text * Z) | OIndexError | OLen (n : Z).
(** The addresses each thread has still to append (none if getaddrinfo raised)
    and [_found]. *)
Record seeder : Type := mk_seeder { sd_pending : list (list (text * Z)); sd_found : list (text * Z) }.
(** [==] of two addresses. *)
Definition pair_eqb (a b : text * Z) : bool := bytes_eqb (fst a) (fst b) && (snd a =? snd b).
(** [list.remove]. *)
Fixpoint remove_first (a : text * Z) (l : list (text * Z)) : list (text * Z) :=
  match l with [] => [] | b :: r => if pair_eqb b a then r else b :: remove_first a r end.
(** bootstrap.py:52-55: the next address of thread [i]. *)
Fixpoint take_next (i : nat) (l : list (list (text * Z))) : option (text * Z) * list (list (text * Z)) :=
  match i, l with
  | O, (a :: p) :: r => (Some a, p :: r)
  | S i, p :: r => let (a, r) := take_next i r in (a, p :: r)
  | _, _ => (None, l)
  end.
(** bootstrap.py:36-55: one event. *)
Definition seed_step (s : seeder) (ev : seed_event) : seeder * seed_output :=
  match ev with
  | SFound i => match take_next i (sd_pending s) with
                | (Some a, p) => (mk_seeder p (sd_found s ++ [a]), ONothing)
                | (None, _) => (s, ONothing)
                end
  | SPop k => match sd_found s with
              | [] => (s, OIndexError)
              | d :: _ => let a := nth (k mod length (sd_found s)) (sd_found s) d in
                          (mk_seeder (sd_pending s) (remove_first a (sd_found s)), OAddress a)
              end
  | SLen => (s, OLen (zlen (sd_found s)))
  end.
(** A schedule of events. *)
Fixpoint seed_run (s : seeder) (evs : list seed_event) : seeder * list seed_output :=
  match evs with
  | [] => (s, [])
  | ev :: r => let (s, o) := seed_step s ev in let (s, os) := seed_run s r in (s, o :: os)
  end.

(** ** Block height (util/__init__.py) *)

(** The values that json.loads returns. *)
Inductive jtree : Type :=
| TNull | TBool (b : bool) | TInt (z : Z) | TFloat (f : pyfloat) | TStr (s : text)
| TList (l : list jtree) | TDict (d : list (text * jtree)).
(** [d[k]]: KeyError if there is no such member. *)
Fixpoint dict_get (k : text) (d : list (text * jtree)) : res jtree :=
  match d with [] => Raise KeyError | (k', v) :: r => if bytes_eqb k' k then Ok v else dict_get k r end.
(** [int(data)]. *)
Definition tree_int (t : jtree) : res Z :=
  match t with
  | TBool b => Ok (if b then 1 else 0)
  | TInt z => Ok z
  | TFloat f => float_trunc f
  | TStr s => match int_of_text 10 s with Some z => Ok z | None => Raise ValueError end
  | _ => Raise TypeError
  end.
(** util/__init__.py:146-152; [ininstance] of line 149 is no name. *)
Fixpoint follow (path : list text) (data : jtree) : res jtree :=
  match path with
  | [] => Ok data
  | c :: r => match data with
              | TDict d => let! v := dict_get c d in follow r v
              | _ => Raise NameError
              end
  end.
(** util/__init__.py:138-159: the result of the function that fetch_url_json_path_int
    returns, given the page (an exception of urlopen is not caught) and what
    json.loads makes of it. *)
Definition fetch_json_path (loads : bytes -> res jtree) (page : res bytes) (path : text) : res (option Z) :=
  let! payload := page in
  match (let! data := loads payload in
         let! v := follow (split_on 47 path) data in
         tree_int v) with
  | Ok z => Ok (Some z)
  | Raise _ => Ok None
  end.
(** util/__init__.py:161-171; [int] of a byte string of ASCII text. *)
Definition fetch_int (page : res bytes) : res (option Z) :=
  match page with
  | Raise _ => Ok None
  | Ok s => match int_of_text 10 s with Some z => Ok (Some z) | None => Ok None end
  end.

(** util/__init__.py:173-201 [guess_block_height].  A source is its name, when its thread
    ends (None: never) and what its function returned (an exception is
    printed).  Times are in ticks since [t0]; reading the clock takes none.
    [join(wait)] returns when the thread ends or after [max(wait, 0)]. *)
Record source : Type := mk_source { so_name : text; so_end : option Z; so_result : res (option Z) }.
(** [thread.join(wait)]: when it returns. *)
Definition join_until (now wait : Z) (finish : option Z) : Z :=
  match finish with
  | Some f => if f <=? now then now else Z.min f (now + Z.max wait 0)
  | None => now + Z.max wait 0
  end.
(** util/__init__.py:193-197: the loop over the threads. *)
Fixpoint join_all (timeout now : Z) (l : list source) : Z :=
  match l with
  | [] => now
  | s :: r => if timeout <? 0 then now else join_all timeout (join_until now (timeout - now) (so_end s)) r
  end.
(** The copy of the dictionary at the time [t]: an entry for each source whose
    function has returned. *)
Definition ended_by (t : Z) (s : source) : bool := match so_end s with Some f => f <=? t | None => false end.
(** util/__init__.py:178-184, 200-201: the entries made by then. *)
Definition entries_at (t : Z) (l : list source) : list (text * option Z) :=
  flat_map (fun s => match so_result s with Ok v => if ended_by t s then [(so_name s, v)] else [] | Raise _ => [] end) l.
(** util/__init__.py:173-201. *)
Definition guess_block_height (timeout : Z) (l : list source) : Z * list (text * option Z) :=
  let t := join_all timeout 0 l in (t, entries_at t l).

(** ** commify (util/__init__.py:60-61) *)

(** The digits in groups of three, counted from the right. *)
Fixpoint group_digits (rdigits : text) (k : nat) : text :=
  match rdigits with
  | [] => []
  | c :: r => match k with
              | O => 44 :: c :: group_digits r 2
              | S k => c :: group_digits r k
              end
  end.
(** util/__init__.py:60-61. *)
Definition commify (z : Z) : text :=
  (if z <? 0 then [45] else []) ++ rev (group_digits (rev (text_of_int 10 (Z.abs z))) 3).
Example commify_1 : commify (-1234567) = bs "-1,234,567" /\ commify 100 = bs "100" /\ commify 0 = bs "0" /\ commify 123456 = bs "123,456".
Proof. repeat split; vm_compute; reflexivity. Qed.
