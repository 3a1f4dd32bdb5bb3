(** * A join message whose valaddress is the address of a module account (model only, no proofs).

    The valaddress of x/stakers JoinPool is any address (types/message_join_pool.go 43-45 only asks
    for valid bech32). The coins of the message are sent to it with the bank keeper's SendCoins
    (msg_server_join_pool.go 76, util/logic_bank.go 9-29), which, unlike the message MsgSend and
    SendCoinsFromModuleToAccount, does not look at the blocked addresses of app/app_config.go
    190-204 (Cosmos SDK, outside /repo). In Stakers.v the recipient is the user account of the
    valaddress; here it is any account. *)
From Verif Require Import Base Delegation Stakers Funders Team RoundRobin Pool Bundles Chain.

(** msg_server_join_pool.go 22-88, as in Stakers.v; [to]: the account behind the valaddress. *)
Definition msg_join_to (st : sstate) (pool : option bool) (del : N -> Z) (s p v : N) (to : acct) (amount : Z) : option sstate :=
  match pool with
  | None => None
  | Some true => None
  | Some false =>
      match ss_stakers st !! s with
      | None => None
      | Some _ =>
          if (s =? v)%N then None
          else
            match get_val st p s with
            | Some _ => None
            | None =>
                match ensure_slot st del p s with
                | None => None
                | Some st1 =>
                    if existsb (fun x => x =? v)%N (valaddrs_of st1 s) then None
                    else if existsb (fun x => match get_val st1 p x with Some y => (vl_addr y =? v)%N | None => false end)
                              (pool_stakers st1 p) then None
                    else
                      let st2 := add_val st1 p s v in
                      match pay_kyve (ss_bank st2) (User s) to amount with
                      | None => None
                      | Some b => Some (with_sbank st2 b)
                      end
                end
            end
      end
  end.

(** Steps of the chain, and joins with any recipient. The bank of the chain is [c_bank]; the copy
    inside [c_s] is overwritten whenever it is read ([s_in]). Here it is set to what a join paying
    a user would have left there, which is never seen; [join_to_seen] in GiftsClaims.v. *)
Inductive wop :=
  | WOp (o : cop)
  | WJoin (s p v : N) (to : acct) (a : Z).
Definition wmsg (c : chain) (o : wop) : option chain :=
  match o with
  | WOp o => cmsg c o
  | WJoin s p v to a =>
      match msg_join_to (s_in c) (pl_disabled <$> get_pool c p) (power c) s p v to a,
            msg_join (s_in c) (pl_disabled <$> get_pool c p) (power c) s p v a with
      | Some st, Some st1 => Some (cw_bank (cw_s c (with_sbank st (ss_bank st1))) (ss_bank st))
      | _, _ => None
      end
  end.
Definition wstep (c : chain) (o : wop) : chain := default c (wmsg c o).
Fixpoint wrun (c : chain) (ops : list wop) : chain :=
  match ops with [] => c | o :: t => wrun (wstep c o) t end.

(** Inputs the environment can produce: as for a join; an address has one account. *)
Definition wop_ok (c : chain) (o : wop) : Prop :=
  match o with
  | WOp o => cop_ok c o
  | WJoin s p v to a => cop_ok c (CJoin s p v a) /\ match to with User u => u = v | _ => True end
  end.
Fixpoint wops_ok (c : chain) (ops : list wop) : Prop :=
  match ops with [] => True | o :: t => wop_ok c o /\ wops_ok (wstep c o) t end.
