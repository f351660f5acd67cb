(** * What is expected of a connection of the web server *)
From Verif Require Import Base Ssl_Model Wcon_Model.
Open Scope Z_scope.

(** all bytes of an answer *)
Definition whole (r : rsp) : list Z :=
  r_head r ++ match r_body r with BNo => [] | BFile f => f | BApi p => p end.
(** the answers to the requests that were received in a history *)
Fixpoint asked (l : list act) : list Z :=
  match l with
  | [] => []
  | Rd (RdReq r) :: t => whole r ++ asked t
  | _ :: t => asked t
  end.
(** nothing fails and no timer runs out; the other side may end its sending at any time once
    it has sent its requests *)
Definition calm1 (a : act) : Prop :=
  match a with
  | Expire | Hs Failed | Rd RdFail | Snd SFail | Get None | Sh Failed => False
  | _ => True
  end.
Definition calm (l : list act) : Prop := Forall calm1 l.
(** no further request *)
Definition no_request (l : list act) : Prop := asked l = [].

(** whatever has happened, if nothing failed the answers can still be sent completely *)
Definition goes_on (t : bool) : Prop := forall l s, calm l -> run (start t) l = Ok (Some s) ->
  exists l' s', calm l' /\ no_request l' /\ run s l' = Ok (Some s') /\ s_wire s' = asked l.
(** the connection reads the next request or is being ended *)
Definition settled (s : wst) : Prop := s_pc s = WRd \/ s_pc s = WShut \/ s_pc s = WDead.
(** nothing more is ever sent *)
Definition silent (s : wst) : Prop := forall l s', run s l = Ok (Some s') -> s_wire s' = s_wire s.
(** the connection is in the hands of the event loop *)
Definition waiting (s : wst) : Prop := s_pc s = WIdle.
(** in the handshake the socket could always take what the library had to send *)
Definition hs_sent (l : list act) : Prop := ~ In (Hs WantW) l.
