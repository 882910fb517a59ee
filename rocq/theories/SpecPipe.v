(* Vocabulary for the properties of the pipe transport. *)
From Coq Require Import NArith ZArith String List Bool.
From Verif Require Import Base Types Bytes Migr Irq Pci Handlers Server SpecServer Wire Tran SpecWire Pipe.
Import ListNotations.
Open Scope N_scope.

(* What a history of a server on pipes that does not crash does: as history in SpecServer.v. *)
Inductive pipe_history : server -> list step -> server -> list (N * N) -> list event -> Prop :=
| ph_nil : forall s, pipe_history s [] s [] []
| ph_cons : forall s st o s1 ev1 l s2 arr ev2,
    pipe_step s st = (o, s1, ev1) -> (forall c, o <> Crash c) -> pipe_history s1 l s2 arr ev2 ->
    pipe_history s (st :: l) s2 (arrived s st ++ arr) (ev1 ++ ev2).

Definition is_attach (st : step) : bool := match st with SAttach _ => true | _ => false end.

(* Everything but the closing of the connection. *)
Definition keeps_conn (e : event) : bool := match e with EvDetach => false | _ => true end.

(* How often the device is told that the client is gone. *)
Definition losses (ev : list event) : nat :=
  length (filter (fun e => match e with EvReset ResetLostConn => true | _ => false end) ev).

(* A request of the library to its client (vfu_sgl_read, vfu_sgl_write) is answered: the reply at the front of w has
   the right id and type, no error, a size within the limits, and the payload asked for. *)
Record answers (w : list N) (id want : N) (payload rest : list N) : Prop := {
  an_id : u16 w 0 = id;
  an_reply : u32 w 8 mod 16 = 1;
  an_ok : N.testbit (u32 w 8) 5 = false;
  an_size : 16 <= u32 w 4 <= 1024 * 1024 + 32;
  an_whole : w = firstn 16 w ++ payload ++ rest;
  an_header : (16 <= length w)%nat;
  an_payload : if (want =? 0) || (u32 w 4 =? 16) then payload = [] else N.of_nat (length payload) = want /\ want <= u32 w 4 - 16
}.

(* Two messages that differ at most in the length they say they have (bytes 4 to 7). *)
Definition same_but_size (b b' : list N) : Prop := firstn 4 b = firstn 4 b' /\ skipn 8 b = skipn 8 b'.

(* The same client on a socket and on a pipe: it sends the same bytes, all of which have arrived, and what is sent to
   it is taken. *)
Record same_client (sa : attach_env) (pa : pipe_env) : Prop := {
  sc_accept : exists fd, at_accept sa = inl fd;
  sc_stream : at_stream sa = pe_in pa;
  sc_avail : (16 <= at_avail sa)%nat /\ (16 <= pe_hdr pa)%nat /\ (length (pe_in pa) <= pe_body pa)%nat;
  sc_taken : exists n m, at_send sa = Sent n /\ pe_send pa = Sent m /\ 4294967296 <= n /\ 4294967296 <= m;
  sc_pair : exists x y, at_pair sa = inl (x, y)
}.
