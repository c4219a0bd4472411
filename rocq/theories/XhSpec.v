(** * XhSpec: vocabulary of the properties about messages to the relay chain. *)
From Verif Require Import Base MapSum Ledger AmmModel XcmModel XhModel.

(** What each request asks the relay chain to do, in order, and under which fee it is sent. *)
Definition wanted (q : xreq) : list rcall :=
  match q with
  | QAddProxy d t n => [RAddProxy d t n]
  | QRemoveProxy d t n => [RRemoveProxy d t n]
  | QWithdraw para w => [RWithdraw w para]
  | QContribute para a => [RContribute para a]
  | QProxyContribute para a w => [RTransferKeepAlive w a; RProxy w (RContribute para a)]
  | QBond v p st i => [RTransferKeepAlive st v; RAsDerivative i (RBond st v p)]
  | QBondExtra v st i => [RTransferKeepAlive st v; RAsDerivative i (RBondExtra v)]
  | QUnbond v i => [RAsDerivative i (RUnbond v)]
  | QRebond v i => [RAsDerivative i (RRebond v)]
  | QWithdrawUnbonded n w i => [RAsDerivative i (RWithdrawUnbonded n); RAsDerivative i (RTransferAll w true)]
  | QNominate ts i => [RAsDerivative i (RNominate ts)]
  end.
Definition fee_kind (q : xreq) : xkind :=
  match q with
  | QAddProxy _ _ _ => KAddProxy | QRemoveProxy _ _ _ => KRemoveProxy | QWithdraw _ _ => KWithdraw
  | QContribute _ _ | QProxyContribute _ _ _ => KContribute | QBond _ _ _ _ => KBond | QBondExtra _ _ _ => KBondExtra
  | QUnbond _ _ => KUnbond | QRebond _ _ => KRebond | QWithdrawUnbonded _ _ _ => KWithdrawUnbonded | QNominate _ _ => KNominate
  end.
(** The message for a list of calls with fee [f], weight [w] and query [id]. *)
Definition message (C : xh_cfg) (w : Z * Z) (f : Z) (calls : list rcall) (id : Z) : list instr :=
  [IWithdraw f; IBuy f] ++ map (fun c => ITransact w (enc (hc_net C) c)) calls ++
  [IReport (mkLoc 0 [JPara (hc_self C)]) id; IRefund; IDeposit f (hc_refund C)].

(** The query ids a message reports to, and what it takes from our account on the relay chain. *)
Definition queries (m : list instr) : list Z := flat_map (fun i => match i with IReport _ q => [q] | _ => [] end) m.
Definition takes (m : list instr) : Z := foldr (fun i n => match i with IWithdraw a => a + n | _ => n end) 0 m.
Definition total (ms : list (list instr)) : Z := foldr (fun m n => takes m + n) 0 ms.
(** Reachable states: any history of requests, fee updates, fee payments and other ledger activity. *)
Inductive xh_reachable (C : xh_cfg) (P : policy) : xh -> Prop :=
| xr_init L : xh_reachable C P (xh0 L)
| xr_step s o s' : xh_reachable C P s -> xh_step C P s o = Ok s' -> xh_reachable C P s'.

(** Values that fit their Rust types. *)
Definition bytes_ok (n : Z) (x : Z) : Prop := 0 <= x < 256 ^ n.
Definition acct_ok (w : account) : Prop := bytes_ok 32 w.
Fixpoint call_ok (c : rcall) : Prop :=
  match c with
  | RTransferKeepAlive d v => acct_ok d /\ bytes_ok 16 v
  | RTransferAll d _ => acct_ok d
  | RBond d v p => acct_ok d /\ bytes_ok 16 v /\ match p with PAccount w => acct_ok w | _ => True end
  | RBondExtra v | RUnbond v | RRebond v => bytes_ok 16 v
  | RWithdrawUnbonded n => bytes_ok 4 n
  | RNominate ts => Forall acct_ok ts /\ bytes_ok 4 (Z.of_nat (length ts))
  | RContribute i v => bytes_ok 4 i /\ bytes_ok 16 v
  | RWithdraw w i => acct_ok w /\ bytes_ok 4 i
  | RProxy w c => acct_ok w /\ call_ok c
  | RAddProxy d t n | RRemoveProxy d t n => acct_ok d /\ match t with Some x => bytes_ok 1 x | None => True end /\ bytes_ok 4 n
  | RAsDerivative i c => bytes_ok 2 i /\ call_ok c
  end.
