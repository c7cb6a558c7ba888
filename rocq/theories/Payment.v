(** * Model of the payment manager

    common/pkg/fcrpaymentmgr/payment_manager.go, and the top-up-and-pay helpers
    of the client and the gateway.  The chain, the Lotus API and the signature
    scheme are inputs: every call takes the answers it would get.  The voucher
    text is represented by the voucher itself (base64 of CBOR, lossless).
    [big.Int] values are integers; the sharing of digit buffers is the subject
    of [BigBuf.v]. *)
From Coq Require Import List ZArith Bool Init.Byte.
From Verif Require Import Base.
Import ListNotations.
Open Scope Z_scope.

(** lotus paych.SignedVoucher, as used at payment_manager.go L245-251.
    [v_terms] stands for the remaining fields (time locks, secret, extra
    condition, merges, settle height), empty when they are unset. *)
Record voucher := Voucher {
  v_chan : gostring;
  v_lane : Z;
  v_nonce : Z;
  v_amount : Z;
  v_terms : gostring;
  v_sig : option bytes
}.

(** What is signed: the voucher without its signature ([SigningBytes]). *)
Definition unsigned (v : voucher) : voucher :=
  Voucher (v_chan v) (v_lane v) (v_nonce v) (v_amount v) (v_terms v) None.

(** payment_manager.go L82-86 [laneState]. *)
Record lane := Lane { l_nonce : Z; l_redeemed : Z; l_vouchers : list voucher }.

(** payment_manager.go L70-79 [channelState]; the lock is in [PaymentConc.v]. *)
Record chan := Chan { c_addr : gostring; c_balance : Z; c_redeemed : Z; c_lanes : list (Z * lane) }.

(** payment_manager.go L53-67 [FCRPaymentMgr]: own address, channels out keyed by
    recipient, channels in keyed by channel address. *)
Record mgr := Mgr { m_addr : gostring; m_out : list (gostring * chan); m_in : list (gostring * chan) }.

(** payment_manager.go L89-114 [NewFCRPaymentMgr]: no channels, whatever happened
    before.  Key parsing is not modelled; the address is given. *)
Definition NewMgr (addr : gostring) : mgr := Mgr addr [] [].

(** payment_manager.go L406-408 [Shutdown]: saves nothing. *)
Definition Shutdown (m : mgr) : mgr := m.

(** uint64 increment. *)
Definition incr64 (n : Z) : Z := (n + 1) mod 2 ^ 64.

(** L233-241, L363-371: a missing lane is created with zero nonce and amount. *)
Definition get_lane (c : chan) (k : Z) : lane :=
  match aget Z.eqb (c_lanes c) k with Some l => l | None => Lane 0 0 [] end.

(** What the chain answers to the transaction of a top-up: refused (bad
    address, API error, push error, non-zero exit code), or executed, with the
    address decoded from the receipt if it could be decoded (L169-174). *)
Inductive tx := TxRefused | TxDone (ret : option gostring).

(** L143-183: the path that creates a channel. *)
Definition TopupCreate (m : mgr) (recipient : gostring) (amount : Z) (t : tx) : mgr * bool :=
  match t with
  | TxRefused => (m, false)
  | TxDone None => (m, false)
  | TxDone (Some a) => (Mgr (m_addr m) (aset bytes_eqb (m_out m) recipient (Chan a amount 0 [])) (m_in m), true)
  end.

(** L184-204: the path that adds to a channel. *)
Definition TopupAdd (m : mgr) (recipient : gostring) (c : chan) (amount : Z) (t : tx) : mgr * bool :=
  match t with
  | TxRefused => (m, false)
  | TxDone _ =>
      (Mgr (m_addr m) (aset bytes_eqb (m_out m) recipient (Chan (c_addr c) (c_balance c + amount) (c_redeemed c) (c_lanes c))) (m_in m), true)
  end.

(** payment_manager.go L117-207 [Topup]; [true] when it returns no error.
    Waiting for the receipt is not modelled. *)
Definition Topup (m : mgr) (recipient : gostring) (amount : Z) (t : tx) : mgr * bool :=
  match aget bytes_eqb (m_out m) recipient with
  | None => TopupCreate m recipient amount t
  | Some c => TopupAdd m recipient c amount t
  end.

(** Result of [Pay]: L223 and L232 [needTopup], an error, or channel and voucher. *)
Inductive pay_res := NeedTopup | PayError | Paid (ch : gostring) (v : voucher).

(** payment_manager.go L211-272 [Pay].  [sign] is the answer of [sigs.Sign]; the
    lane created before a failing signature stays (L241). *)
Definition Pay (m : mgr) (recipient : gostring) (lane_id : Z) (amount : Z) (sign : voucher -> option bytes) : mgr * pay_res :=
  match aget bytes_eqb (m_out m) recipient with
  | None => (m, NeedTopup)
  | Some c =>
      if c_balance c <? c_redeemed c + amount then (m, NeedTopup)
      else
        let ls := get_lane c lane_id in
        let sv := Voucher (c_addr c) lane_id (l_nonce ls) (l_redeemed ls + amount) [] None in
        match sign sv with
        | None =>
            let c' := Chan (c_addr c) (c_balance c) (c_redeemed c) (aset Z.eqb (c_lanes c) lane_id ls) in
            (Mgr (m_addr m) (aset bytes_eqb (m_out m) recipient c') (m_in m), PayError)
        | Some s =>
            let v := Voucher (c_addr c) lane_id (l_nonce ls) (l_redeemed ls + amount) [] (Some s) in
            let ls' := Lane (incr64 (l_nonce ls)) (l_redeemed ls + amount) (l_vouchers ls ++ [v]) in
            let c' := Chan (c_addr c) (c_balance c) (c_redeemed c + amount) (aset Z.eqb (c_lanes c) lane_id ls') in
            (Mgr (m_addr m) (aset bytes_eqb (m_out m) recipient c') (m_in m), Paid (c_addr c) v)
        end
  end.

(** One party of the on-chain channel state: the JSON value is not a string
    (the type assertions of L330 and L343 panic), cannot be resolved to an
    account, or resolves to an account address. *)
Inductive party := NotText | Unresolved | Account (a : gostring).

(** The on-chain state of a payment channel, L293-301. *)
Record chain_state := ChainState { ch_balance : Z; ch_to : party; ch_from : party }.

(** Result of [Receive]: the amount, an error, or a panic of the calling
    goroutine. *)
Inductive recv_res := Credited (x : Z) | Refused | Crashed.

Section Verify.
  (** [sigs.Verify] for an account address. *)
  Variable verify : gostring -> voucher -> option bytes -> bool.

  (** L328-400: everything after the local channel entry [c] is in place. *)
  Definition ReceiveOn (own : gostring) (c : chan) (sv : voucher) (cs : chain_state) : chan * recv_res :=
    match ch_to cs with
    | NotText => (c, Crashed)
    | Unresolved => (c, Refused)
    | Account to =>
        if negb (bytes_eqb to own) then (c, Refused)
        else match ch_from cs with
        | NotText => (c, Crashed)
        | Unresolved => (c, Refused)
        | Account from =>
            if negb (verify from (unsigned sv) (v_sig sv)) then (c, Refused)
            else
              let ls := get_lane c (v_lane sv) in
              let c1 := Chan (c_addr c) (c_balance c) (c_redeemed c) (aset Z.eqb (c_lanes c) (v_lane sv) ls) in
              if v_nonce sv <? l_nonce ls then (c1, Refused)
              else if v_amount sv <=? l_redeemed ls then (c1, Refused)
              else
                let pay := v_amount sv - l_redeemed ls in
                if c_balance c <? c_redeemed c + pay then (c1, Refused)
                else
                  let ls' := Lane (incr64 (v_nonce sv)) (v_amount sv) (l_vouchers ls ++ [sv]) in
                  (Chan (c_addr c) (c_balance c) (c_redeemed c + pay) (aset Z.eqb (c_lanes c) (v_lane sv) ls'), Credited pay)
        end
    end.

  Definition put_in (m : mgr) (channel : gostring) (c : chan) : mgr :=
    Mgr (m_addr m) (m_out m) (aset bytes_eqb (m_in m) channel c).

  (** L307-317 then L328-400: the path that creates the local entry. *)
  Definition ReceiveCreate (m : mgr) (channel : gostring) (sv : voucher) (cs : chain_state) : mgr * recv_res :=
    let (c', r) := ReceiveOn (m_addr m) (Chan channel (ch_balance cs) 0 []) sv cs in
    (put_in m channel c', r).

  (** L318-327 then L328-400: the path that updates the local entry. *)
  Definition ReceiveUpdate (m : mgr) (channel : gostring) (c : chan) (sv : voucher) (cs : chain_state) : mgr * recv_res :=
    if ch_balance cs <? c_balance c then (m, Refused)
    else
      let (c', r) := ReceiveOn (m_addr m) (Chan (c_addr c) (ch_balance cs) (c_redeemed c) (c_lanes c)) sv cs in
      (put_in m channel c', r).

  (** payment_manager.go L276-403 [Receive].  [dv] is the decoded voucher, if it
      decodes; [rs] the on-chain state, if the channel address parses, the API
      answers and the state is an object. *)
  Definition Receive (m : mgr) (channel : gostring) (dv : option voucher) (rs : option chain_state) : mgr * recv_res :=
    match dv, rs with
    | Some sv, Some cs =>
        match aget bytes_eqb (m_in m) channel with
        | None => ReceiveCreate m channel sv cs
        | Some c => ReceiveUpdate m channel c sv cs
        end
    | _, _ => (m, Refused)
    end.
End Verify.

(** filecoin_retrieval_client.go L768-791 and dht_discover_handler_v2.go L139-162
    [topupAndPay]: the same control flow.  [cfg] is the configured top-up
    amount; [t1], [t2] the chain's answers to the two possible top-ups. *)
Definition topupAndPay (m : mgr) (recipient : gostring) (lane_id amount cfg : Z) (t1 t2 : tx)
    (sign : voucher -> option bytes) : mgr * result (gostring * voucher) :=
  let (m1, ok1) := Topup m recipient cfg t1 in
  if negb ok1 then (m1, ErrR)
  else
    let (m2, p) := Pay m1 recipient lane_id amount sign in
    match p with
    | PayError => (m2, ErrR)
    | Paid ch v => (m2, OkR (ch, v))
    | NeedTopup =>
        let (m3, ok2) := Topup m2 recipient cfg t2 in
        if negb ok2 then (m3, ErrR)
        else
          let (m4, p2) := Pay m3 recipient lane_id amount sign in
          match p2 with
          | Paid ch v => (m4, OkR (ch, v))
          | _ => (m4, ErrR)
          end
    end.
