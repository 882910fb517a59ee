(* Which requests are never answered. *)
From Coq Require Import NArith ZArith List Bool.
From Verif Require Import Base Server SpecServer.
Import ListNotations.
Open Scope N_scope.

(* The reply cannot be sent, or the device says that it could not quiesce after all. *)
Definition fails (st : step) : bool :=
  match st with
  | SRun en => match en_send en with None => false | Some _ => true end
  | SQuiesced errno en => negb (errno =? 0) || match en_send en with None => false | Some _ => true end
  | _ => false
  end.

(* The requests that ask for a reply and that such a step takes up or has held, and does not hold any more. *)
Fixpoint dropped (s : server) (l : list step) : list (N * N) :=
  match l with
  | [] => []
  | st :: l' =>
      let s1 := snd (fst (sv_step s st)) in
      (if fails st then match owed s1 with [] => owed s ++ arrived s st | _ => [] end else []) ++ dropped s1 l'
  end.
