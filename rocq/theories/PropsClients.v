(** * C110: clients that take turns *)
From Verif Require Import StrFacts RenumFacts.
From Verif Require Import SpecClients ObjectFacts ClientFacts PropsObjects.

(** Clients that each use a database of their own, in turns taken in any way: every database ends as if its client
    had been alone, and as the programs of [SpecApi] without objects end. *)
Theorem C110_clients cs h prog d v :
  runs no_objects cs h -> (forall d1 d2 t, holds h d1 t -> holds h d2 t -> d1 = d2) ->
  (forall x, In x prog -> is_base h (fst x)) -> is_base h d ->
  run_api (of_client d prog) (base_of h d) = Ok v -> plain (base_of (do_all prog h) d) = plain v.
Proof.
  intros R A P B E. apply (do_all_turns (is_base h)); [|exact P | exact B | exact E].
  split; [exact (reach_sound _ _ R)|]. split; [auto|]. intros d1 d2 t _ _. apply A.
Qed.
Print Assumptions C110_clients.

(** two clients on the databases 5 and 6 of the program above *)
Definition turns : list (nat * api_op) :=
  [(5, ApiAddTable ($"u") ($"s") (Some (KeyList [$"x"; $"y"])) None [OnColumns (SpecModel.AddColumn (col "x"))]);
   (6, ApiAddTable ($"u") ($"r") None (Some {| sk_id := 0; sk_keys := [$"k"]; sk_shards := 8 |}) []);
   (5, ApiOnTable ($"t") (OnConstraints (AddFkParts (Some (OneKey ($"id"))) (Some ($"u")) (Some (KeyList [$"x"])) None)));
   (6, ApiOnTable ($"u") (SpecApi.SetPrimaryKey (Some (OneKey ($"k")))));
   (5, ApiDropTable ($"u"))].
Example C110_clients_case :
  (forall d1 d2 t, holds h_start d1 t -> holds h_start d2 t -> d1 = d2) /\ (forall x, In x turns -> is_base h_start (fst x)) /\
  exists v w, run_api (of_client 5 turns) (base_of h_start 5) = Ok v /\ run_api (of_client 6 turns) (base_of h_start 6) = Ok w /\
    plain (base_of (do_all turns h_start) 5) = plain v /\ get_table_names v = [$"t"] /\
    plain (base_of (do_all turns h_start) 6) = plain w /\ get_table_names w = [$"u"].
Proof.
  split; [|split].
  - apply (unshared_apart _ _ _ start_runs no_objects_sound start_unshared). intros d1 d2 x (b & n & E & _). discriminate.
  - intros x I. cbn [turns In] in I. repeat (destruct I as [<-|I]; [eexists; reflexivity|]). destruct I.
  - eexists _, _. split; [vm_compute; reflexivity|]. split; [vm_compute; reflexivity|]. vm_compute. repeat split; reflexivity.
Qed.
