(** Lemmas about [Messages.v]. *)
From Coq Require Import String List ZArith Bool Lia.
From Coq Require Import Init.Byte.
From Verif Require Import Base BaseProofs Ids IdsProofs Json JsonProofs Merkle MerkleWire Crypto CryptoProofs Message
  Offer OfferProofs WireSpec Schema SchemaProofs Messages MessagesSpec.
Import ListNotations.
Open Scope Z_scope.

(** ** Round trips *)

Lemma ids_text_of l : Forall id32 l -> ids_of_text (ids_text l) = Ret l.
Proof. intros H. unfold ids_of_text, ids_text. apply map_string_ids. exact H. Qed.

Lemma key_text_of sk : length sk = 32%nat ->
  DecodePrivateKey (EncodePrivateKey (KeyPair (Some sk) None x01)) = Ret (OkR (KeyPair (Some sk) None x01)).
Proof. intros H. apply (private_roundtrip_pf (KeyPair (Some sk) None x01) sk); [reflexivity|reflexivity|exact H]. Qed.

Ltac fields_ok :=
  cbn [all_fok fok fst snd]; repeat (split; [first [exact I | assumption]|]); exact I.
Ltac roundtrip enc dec tag sch v :=
  intros; unfold enc, id_text; cbn [deref obind];
  match goal with |- context [encode ?ver ?sup _ _ _] =>
    match goal with |- context [dec ?sha _] =>
      let m := fresh "m" in let E := fresh "E" in let F := fresh "F" in let D := fresh "D" in
      destruct (codec_pf sha ver sup tag sch v) as (m & E & F & D);
        [vm_compute; reflexivity|unfold sch; fields_ok|];
      exists m; split; [exact E|]; split; [exact F|];
      unfold dec, rbind; rewrite D; cbn [obind];
      rewrite ?id_ptr_ToString by assumption;
      repeat (rewrite ids_text_of by assumption; cbn [obind]);
      rewrite ?key_text_of by assumption; cbn [obind]; try reflexivity
    end
  end.

Lemma rt_ClientDHTDiscoverOfferRequest : forall version supported sha256 (pieceCID : bytes) (nonce : Z)
    (gatewaysDigests : option (list (option (list gostring)))) (gatewayIDs : list bytes) (paychAddr : gostring)
    (voucher : gostring),
  id32 pieceCID -> int64 nonce -> Forall id32 gatewayIDs ->
  exists m, EncodeClientDHTDiscoverOfferRequest version supported (Some pieceCID) nonce gatewaysDigests gatewayIDs
      paychAddr voucher = Ret m /\
    fresh version supported 114 m /\ DecodeClientDHTDiscoverOfferRequest sha256 m = Ret (OkR (Some pieceCID, nonce,
        gatewaysDigests, gatewayIDs, paychAddr, voucher)).
Proof.
  intros version supported sha256 pieceCID nonce gatewaysDigests gatewayIDs paychAddr voucher.
  roundtrip EncodeClientDHTDiscoverOfferRequest DecodeClientDHTDiscoverOfferRequest ClientDHTDiscoverOfferRequestType
      clientDHTDiscoverOfferRequest (ToString pieceCID, (nonce, (gatewaysDigests, (ids_text gatewayIDs, (paychAddr,
      (voucher, tt)))))).
Qed.

Lemma rt_ClientDHTDiscoverOfferResponse : forall version supported sha256 (pieceCID : bytes) (nonce : Z) (gatewayIDs
    : list bytes) (response : option (list message)) (paymentRequired : bool) (paymentChannel : gostring),
  id32 pieceCID -> int64 nonce -> Forall id32 gatewayIDs -> each wire_message response ->
  exists m, EncodeClientDHTDiscoverOfferResponse version supported (Some pieceCID) nonce gatewayIDs response
      paymentRequired paymentChannel = Ret m /\
    fresh version supported 115 m /\ DecodeClientDHTDiscoverOfferResponse sha256 m = Ret (OkR (Some pieceCID, nonce,
        gatewayIDs, response, paymentRequired, paymentChannel)).
Proof.
  intros version supported sha256 pieceCID nonce gatewayIDs response paymentRequired paymentChannel.
  roundtrip EncodeClientDHTDiscoverOfferResponse DecodeClientDHTDiscoverOfferResponse
      ClientDHTDiscoverOfferResponseType clientDHTDiscoverOfferResponse (ToString pieceCID, (nonce, (ids_text
      gatewayIDs, (response, (paymentRequired, (paymentChannel, tt)))))).
Qed.

Lemma rt_ClientDHTDiscoverRequest : forall version supported sha256 (pieceCID : bytes) (nonce : Z) (ttl : Z) (numDHT
    : Z) (incrementalResults : bool) (paychAddr : gostring) (voucher : gostring),
  id32 pieceCID -> int64 nonce -> int64 ttl -> int64 numDHT ->
  exists m, EncodeClientDHTDiscoverRequest version supported (Some pieceCID) nonce ttl numDHT incrementalResults
      paychAddr voucher = Ret m /\
    fresh version supported 104 m /\ DecodeClientDHTDiscoverRequest sha256 m = Ret (OkR (Some pieceCID, nonce, ttl,
        numDHT, incrementalResults, paychAddr, voucher)).
Proof.
  intros version supported sha256 pieceCID nonce ttl numDHT incrementalResults paychAddr voucher.
  roundtrip EncodeClientDHTDiscoverRequest DecodeClientDHTDiscoverRequest ClientDHTDiscoverRequestType
      clientDHTDiscoverRequest (ToString pieceCID, (nonce, (ttl, (numDHT, (incrementalResults, (paychAddr, (voucher,
      tt))))))).
Qed.

Lemma rt_ClientDHTDiscoverRequestV2 : forall version supported sha256 (pieceCID : bytes) (nonce : Z) (ttl : Z)
    (numDHT : Z) (incrementalResults : bool) (paychAddr : gostring) (voucher : gostring),
  id32 pieceCID -> int64 nonce -> int64 ttl -> int64 numDHT ->
  exists m, EncodeClientDHTDiscoverRequestV2 version supported (Some pieceCID) nonce ttl numDHT incrementalResults
      paychAddr voucher = Ret m /\
    fresh version supported 112 m /\ DecodeClientDHTDiscoverRequestV2 sha256 m = Ret (OkR (Some pieceCID, nonce, ttl,
        numDHT, incrementalResults, paychAddr, voucher)).
Proof.
  intros version supported sha256 pieceCID nonce ttl numDHT incrementalResults paychAddr voucher.
  roundtrip EncodeClientDHTDiscoverRequestV2 DecodeClientDHTDiscoverRequestV2 ClientDHTDiscoverRequestV2Type
      clientDHTDiscoverRequestV2 (ToString pieceCID, (nonce, (ttl, (numDHT, (incrementalResults, (paychAddr,
      (voucher, tt))))))).
Qed.

Lemma rt_ClientDHTDiscoverResponse : forall version supported sha256 (contacted : list bytes) (response : option
    (list message)) (unContactable : list bytes) (nonce : Z) (paymentRequired : bool) (paymentChannel : gostring),
  Forall id32 contacted -> each wire_message response -> Forall id32 unContactable -> int64 nonce ->
  exists m, EncodeClientDHTDiscoverResponse version supported contacted response unContactable nonce paymentRequired
      paymentChannel = Ret m /\
    fresh version supported 105 m /\ DecodeClientDHTDiscoverResponse sha256 m = Ret (OkR (contacted, response,
        unContactable, nonce, paymentRequired, paymentChannel)).
Proof.
  intros version supported sha256 contacted response unContactable nonce paymentRequired paymentChannel.
  roundtrip EncodeClientDHTDiscoverResponse DecodeClientDHTDiscoverResponse ClientDHTDiscoverResponseType
      clientDHTDiscoverResponse (ids_text contacted, (response, (ids_text unContactable, (nonce, (paymentRequired,
      (paymentChannel, tt)))))).
Qed.

Lemma rt_ClientDHTDiscoverResponseV2 : forall version supported sha256 (contacted : list bytes) (response : option
    (list message)) (unContactable : list bytes) (nonce : Z) (paymentRequired : bool) (paymentChannel : gostring),
  Forall id32 contacted -> each wire_message response -> Forall id32 unContactable -> int64 nonce ->
  exists m, EncodeClientDHTDiscoverResponseV2 version supported contacted response unContactable nonce
      paymentRequired paymentChannel = Ret m /\
    fresh version supported 113 m /\ DecodeClientDHTDiscoverResponseV2 sha256 m = Ret (OkR (contacted, response,
        unContactable, nonce, paymentRequired, paymentChannel)).
Proof.
  intros version supported sha256 contacted response unContactable nonce paymentRequired paymentChannel.
  roundtrip EncodeClientDHTDiscoverResponseV2 DecodeClientDHTDiscoverResponseV2 ClientDHTDiscoverResponseV2Type
      clientDHTDiscoverResponseV2 (ids_text contacted, (response, (ids_text unContactable, (nonce, (paymentRequired,
      (paymentChannel, tt)))))).
Qed.

Lemma rt_ClientDHTOfferAckRequest : forall version supported sha256 (pieceCID : bytes) (gatewayID : bytes),
  id32 pieceCID -> id32 gatewayID ->
  exists m, EncodeClientDHTOfferAckRequest version supported (Some pieceCID) (Some gatewayID) = Ret m /\
    fresh version supported 106 m /\ DecodeClientDHTOfferAckRequest sha256 m = Ret (OkR (Some pieceCID, Some
        gatewayID)).
Proof.
  intros version supported sha256 pieceCID gatewayID.
  roundtrip EncodeClientDHTOfferAckRequest DecodeClientDHTOfferAckRequest ClientDHTOfferAckRequestType
      clientDHTOfferAckRequest (ToString pieceCID, (ToString gatewayID, tt)).
Qed.

Lemma rt_ClientDHTOfferAckResponse : forall version supported sha256 (pieceCID : bytes) (gatewayID : bytes) (found :
    bool) (publishDHTOfferRequest : message) (publishDHTOfferResponse : message),
  id32 pieceCID -> id32 gatewayID -> wire_message publishDHTOfferRequest -> wire_message publishDHTOfferResponse ->
  exists m, EncodeClientDHTOfferAckResponse version supported (Some pieceCID) (Some gatewayID) found (Some
      publishDHTOfferRequest) (Some publishDHTOfferResponse) = Ret m /\
    fresh version supported 107 m /\ DecodeClientDHTOfferAckResponse sha256 m = Ret (OkR (Some pieceCID, Some
        gatewayID, found, Some publishDHTOfferRequest, Some publishDHTOfferResponse)).
Proof.
  intros version supported sha256 pieceCID gatewayID found publishDHTOfferRequest publishDHTOfferResponse.
  roundtrip EncodeClientDHTOfferAckResponse DecodeClientDHTOfferAckResponse ClientDHTOfferAckResponseType
      clientDHTOfferAckResponse (ToString pieceCID, (ToString gatewayID, (found, (publishDHTOfferRequest,
      (publishDHTOfferResponse, tt))))).
Qed.

Lemma rt_ClientEstablishmentRequest : forall version supported sha256 (clientID : bytes) (challenge : gostring) (ttl
    : Z),
  id32 clientID -> int64 ttl ->
  exists m, EncodeClientEstablishmentRequest version supported (Some clientID) challenge ttl = Ret m /\
    fresh version supported 100 m /\ DecodeClientEstablishmentRequest sha256 m = Ret (OkR (Some clientID, challenge,
        ttl)).
Proof.
  intros version supported sha256 clientID challenge ttl.
  roundtrip EncodeClientEstablishmentRequest DecodeClientEstablishmentRequest ClientEstablishmentRequestType
      clientEstablishmentRequest (ToString clientID, (challenge, (ttl, tt))).
Qed.

Lemma rt_ClientEstablishmentResponse : forall version supported sha256 (gatewayID : bytes) (challenge : gostring),
  id32 gatewayID ->
  exists m, EncodeClientEstablishmentResponse version supported (Some gatewayID) challenge = Ret m /\
    fresh version supported 101 m /\ DecodeClientEstablishmentResponse sha256 m = Ret (OkR (Some gatewayID,
        challenge)).
Proof.
  intros version supported sha256 gatewayID challenge.
  roundtrip EncodeClientEstablishmentResponse DecodeClientEstablishmentResponse ClientEstablishmentResponseType
      clientEstablishmentResponse (ToString gatewayID, (challenge, tt)).
Qed.

Lemma rt_ClientStandardDiscoverOfferRequest : forall version supported sha256 (pieceCID : bytes) (nonce : Z) (ttl :
    Z) (offerDigests : option (list gostring)) (paychAddr : gostring) (voucher : gostring),
  id32 pieceCID -> int64 nonce -> int64 ttl ->
  exists m, EncodeClientStandardDiscoverOfferRequest version supported (Some pieceCID) nonce ttl offerDigests
      paychAddr voucher = Ret m /\
    fresh version supported 110 m /\ DecodeClientStandardDiscoverOfferRequest sha256 m = Ret (OkR (Some pieceCID,
        nonce, ttl, offerDigests, paychAddr, voucher)).
Proof.
  intros version supported sha256 pieceCID nonce ttl offerDigests paychAddr voucher.
  roundtrip EncodeClientStandardDiscoverOfferRequest DecodeClientStandardDiscoverOfferRequest
      ClientStandardDiscoverOfferRequestType clientStandardDiscoverOfferRequest (ToString pieceCID, (nonce, (ttl,
      (offerDigests, (paychAddr, (voucher, tt)))))).
Qed.

Lemma rt_ClientStandardDiscoverOfferResponse : forall version supported sha256 (pieceCID : bytes) (nonce : Z) (found
    : bool) (offers : option (list suboffer)) (fundedPaymentChannel : option (list bool)) (paymentRequired : bool)
    (paymentChannel : gostring),
  id32 pieceCID -> int64 nonce -> each wire_suboffer offers ->
  exists m, EncodeClientStandardDiscoverOfferResponse version supported (Some pieceCID) nonce found offers
      fundedPaymentChannel paymentRequired paymentChannel = Ret m /\
    fresh version supported 111 m /\ DecodeClientStandardDiscoverOfferResponse sha256 m = Ret (OkR (Some pieceCID,
        nonce, found, offers, fundedPaymentChannel, paymentRequired, paymentChannel)).
Proof.
  intros version supported sha256 pieceCID nonce found offers fundedPaymentChannel paymentRequired paymentChannel.
  roundtrip EncodeClientStandardDiscoverOfferResponse DecodeClientStandardDiscoverOfferResponse
      ClientStandardDiscoverOfferResponseType clientStandardDiscoverOfferResponse (ToString pieceCID, (nonce, (found,
      (offers, (fundedPaymentChannel, (paymentRequired, (paymentChannel, tt))))))).
Qed.

Lemma rt_ClientStandardDiscoverRequest : forall version supported sha256 (pieceCID : bytes) (nonce : Z) (ttl : Z)
    (paychAddr : gostring) (voucher : gostring),
  id32 pieceCID -> int64 nonce -> int64 ttl ->
  exists m, EncodeClientStandardDiscoverRequest version supported (Some pieceCID) nonce ttl paychAddr voucher = Ret m
      /\
    fresh version supported 102 m /\ DecodeClientStandardDiscoverRequest sha256 m = Ret (OkR (Some pieceCID, nonce,
        ttl, paychAddr, voucher)).
Proof.
  intros version supported sha256 pieceCID nonce ttl paychAddr voucher.
  roundtrip EncodeClientStandardDiscoverRequest DecodeClientStandardDiscoverRequest ClientStandardDiscoverRequestType
      clientStandardDiscoverRequest (ToString pieceCID, (nonce, (ttl, (paychAddr, (voucher, tt))))).
Qed.

Lemma rt_ClientStandardDiscoverRequestV2 : forall version supported sha256 (pieceCID : bytes) (nonce : Z) (ttl : Z)
    (paychAddr : gostring) (voucher : gostring),
  id32 pieceCID -> int64 nonce -> int64 ttl ->
  exists m, EncodeClientStandardDiscoverRequestV2 version supported (Some pieceCID) nonce ttl paychAddr voucher = Ret
      m /\
    fresh version supported 108 m /\ DecodeClientStandardDiscoverRequestV2 sha256 m = Ret (OkR (Some pieceCID, nonce,
        ttl, paychAddr, voucher)).
Proof.
  intros version supported sha256 pieceCID nonce ttl paychAddr voucher.
  roundtrip EncodeClientStandardDiscoverRequestV2 DecodeClientStandardDiscoverRequestV2
      ClientStandardDiscoverRequestV2Type clientStandardDiscoverRequestV2 (ToString pieceCID, (nonce, (ttl,
      (paychAddr, (voucher, tt))))).
Qed.

Lemma rt_ClientStandardDiscoverResponse : forall version supported sha256 (pieceCID : bytes) (nonce : Z) (found :
    bool) (offers : option (list suboffer)) (fundedPaymentChannel : option (list bool)),
  id32 pieceCID -> int64 nonce -> each wire_suboffer offers ->
  exists m, EncodeClientStandardDiscoverResponse version supported (Some pieceCID) nonce found offers
      fundedPaymentChannel = Ret m /\
    fresh version supported 103 m /\ DecodeClientStandardDiscoverResponse sha256 m = Ret (OkR (Some pieceCID, nonce,
        found, offers, fundedPaymentChannel)).
Proof.
  intros version supported sha256 pieceCID nonce found offers fundedPaymentChannel.
  roundtrip EncodeClientStandardDiscoverResponse DecodeClientStandardDiscoverResponse
      ClientStandardDiscoverResponseType clientStandardDiscoverResponse (ToString pieceCID, (nonce, (found, (offers,
      (fundedPaymentChannel, tt))))).
Qed.

Lemma rt_ClientStandardDiscoverResponseV2 : forall version supported sha256 (pieceCID : bytes) (nonce : Z) (found :
    bool) (offersDigests : option (list gostring)) (fundedPaymentChannel : option (list bool)) (paymentRequired :
    bool) (paymentChannel : gostring),
  id32 pieceCID -> int64 nonce ->
  exists m, EncodeClientStandardDiscoverResponseV2 version supported (Some pieceCID) nonce found offersDigests
      fundedPaymentChannel paymentRequired paymentChannel = Ret m /\
    fresh version supported 109 m /\ DecodeClientStandardDiscoverResponseV2 sha256 m = Ret (OkR (Some pieceCID,
        nonce, found, offersDigests, fundedPaymentChannel, paymentRequired, paymentChannel)).
Proof.
  intros version supported sha256 pieceCID nonce found offersDigests fundedPaymentChannel paymentRequired
      paymentChannel.
  roundtrip EncodeClientStandardDiscoverResponseV2 DecodeClientStandardDiscoverResponseV2
      ClientStandardDiscoverResponseV2Type clientStandardDiscoverResponseV2 (ToString pieceCID, (nonce, (found,
      (offersDigests, (fundedPaymentChannel, (paymentRequired, (paymentChannel, tt))))))).
Qed.

Lemma rt_GatewayDHTDiscoverOfferRequest : forall version supported sha256 (pieceCID : bytes) (nonce : Z)
    (offerDigests : option (list gostring)) (paychAddr : gostring) (voucher : gostring),
  id32 pieceCID -> int64 nonce ->
  exists m, EncodeGatewayDHTDiscoverOfferRequest version supported (Some pieceCID) nonce offerDigests paychAddr
      voucher = Ret m /\
    fresh version supported 209 m /\ DecodeGatewayDHTDiscoverOfferRequest sha256 m = Ret (OkR (Some pieceCID, nonce,
        offerDigests, paychAddr, voucher)).
Proof.
  intros version supported sha256 pieceCID nonce offerDigests paychAddr voucher.
  roundtrip EncodeGatewayDHTDiscoverOfferRequest DecodeGatewayDHTDiscoverOfferRequest
      GatewayDHTDiscoverOfferRequestType gatewayDHTDiscoverOfferRequest (ToString pieceCID, (nonce, (offerDigests,
      (paychAddr, (voucher, tt))))).
Qed.

Lemma rt_GatewayDHTDiscoverOfferResponse : forall version supported sha256 (pieceCID : bytes) (nonce : Z) (found :
    bool) (offers : option (list suboffer)) (fundedPaymentChannel : option (list bool)) (paymentRequired : bool)
    (paymentChannel : gostring),
  id32 pieceCID -> int64 nonce -> each wire_suboffer offers ->
  exists m, EncodeGatewayDHTDiscoverOfferResponse version supported (Some pieceCID) nonce found offers
      fundedPaymentChannel paymentRequired paymentChannel = Ret m /\
    fresh version supported 210 m /\ DecodeGatewayDHTDiscoverOfferResponse sha256 m = Ret (OkR (Some pieceCID, nonce,
        found, offers, fundedPaymentChannel, paymentRequired, paymentChannel)).
Proof.
  intros version supported sha256 pieceCID nonce found offers fundedPaymentChannel paymentRequired paymentChannel.
  roundtrip EncodeGatewayDHTDiscoverOfferResponse DecodeGatewayDHTDiscoverOfferResponse
      GatewayDHTDiscoverOfferResponseType gatewayDHTDiscoverOfferResponse (ToString pieceCID, (nonce, (found,
      (offers, (fundedPaymentChannel, (paymentRequired, (paymentChannel, tt))))))).
Qed.

Lemma rt_GatewayDHTDiscoverRequest : forall version supported sha256 (gatewayID : bytes) (pieceCID : bytes) (nonce :
    Z) (ttl : Z) (paychAddr : gostring) (voucher : gostring),
  id32 gatewayID -> id32 pieceCID -> int64 nonce -> int64 ttl ->
  exists m, EncodeGatewayDHTDiscoverRequest version supported (Some gatewayID) (Some pieceCID) nonce ttl paychAddr
      voucher = Ret m /\
    fresh version supported 203 m /\ DecodeGatewayDHTDiscoverRequest sha256 m = Ret (OkR (Some gatewayID, Some
        pieceCID, nonce, ttl, paychAddr, voucher)).
Proof.
  intros version supported sha256 gatewayID pieceCID nonce ttl paychAddr voucher.
  roundtrip EncodeGatewayDHTDiscoverRequest DecodeGatewayDHTDiscoverRequest GatewayDHTDiscoverRequestType
      gatewayDHTDiscoverRequest (ToString gatewayID, (ToString pieceCID, (nonce, (ttl, (paychAddr, (voucher, tt)))))).
Qed.

Lemma rt_GatewayDHTDiscoverRequestV2 : forall version supported sha256 (gatewayID : bytes) (pieceCID : bytes) (nonce
    : Z) (ttl : Z) (paychAddr : gostring) (voucher : gostring),
  id32 gatewayID -> id32 pieceCID -> int64 nonce -> int64 ttl ->
  exists m, EncodeGatewayDHTDiscoverRequestV2 version supported (Some gatewayID) (Some pieceCID) nonce ttl paychAddr
      voucher = Ret m /\
    fresh version supported 207 m /\ DecodeGatewayDHTDiscoverRequestV2 sha256 m = Ret (OkR (Some gatewayID, Some
        pieceCID, nonce, ttl, paychAddr, voucher)).
Proof.
  intros version supported sha256 gatewayID pieceCID nonce ttl paychAddr voucher.
  roundtrip EncodeGatewayDHTDiscoverRequestV2 DecodeGatewayDHTDiscoverRequestV2 GatewayDHTDiscoverRequestV2Type
      gatewayDHTDiscoverRequestV2 (ToString gatewayID, (ToString pieceCID, (nonce, (ttl, (paychAddr, (voucher,
      tt)))))).
Qed.

Lemma rt_GatewayDHTDiscoverResponse : forall version supported sha256 (pieceCID : bytes) (nonce : Z) (found : bool)
    (offers : option (list suboffer)) (fundedPaymentChannel : option (list bool)),
  id32 pieceCID -> int64 nonce -> each wire_suboffer offers ->
  exists m, EncodeGatewayDHTDiscoverResponse version supported (Some pieceCID) nonce found offers
      fundedPaymentChannel = Ret m /\
    fresh version supported 204 m /\ DecodeGatewayDHTDiscoverResponse sha256 m = Ret (OkR (Some pieceCID, nonce,
        found, offers, fundedPaymentChannel)).
Proof.
  intros version supported sha256 pieceCID nonce found offers fundedPaymentChannel.
  roundtrip EncodeGatewayDHTDiscoverResponse DecodeGatewayDHTDiscoverResponse GatewayDHTDiscoverResponseType
      gatewayDHTDiscoverResponse (ToString pieceCID, (nonce, (found, (offers, (fundedPaymentChannel, tt))))).
Qed.

Lemma rt_GatewayDHTDiscoverResponseV2 : forall version supported sha256 (pieceCID : bytes) (nonce : Z) (found : bool)
    (offers : option (list gostring)) (fundedPaymentChannel : option (list bool)) (paymentRequired : bool)
    (paymentChannel : gostring),
  id32 pieceCID -> int64 nonce ->
  exists m, EncodeGatewayDHTDiscoverResponseV2 version supported (Some pieceCID) nonce found offers
      fundedPaymentChannel paymentRequired paymentChannel = Ret m /\
    fresh version supported 208 m /\ DecodeGatewayDHTDiscoverResponseV2 sha256 m = Ret (OkR (Some pieceCID, nonce,
        found, offers, fundedPaymentChannel, paymentRequired, paymentChannel)).
Proof.
  intros version supported sha256 pieceCID nonce found offers fundedPaymentChannel paymentRequired paymentChannel.
  roundtrip EncodeGatewayDHTDiscoverResponseV2 DecodeGatewayDHTDiscoverResponseV2 GatewayDHTDiscoverResponseV2Type
      gatewayDHTDiscoverResponseV2 (ToString pieceCID, (nonce, (found, (offers, (fundedPaymentChannel,
      (paymentRequired, (paymentChannel, tt))))))).
Qed.

Lemma rt_GatewayListDHTOfferAck : forall version supported sha256 (publishedDHTOffersAck : option (list message)),
  each wire_message publishedDHTOffersAck ->
  exists m, EncodeGatewayListDHTOfferAck version supported publishedDHTOffersAck = Ret m /\
    fresh version supported 202 m /\ DecodeGatewayListDHTOfferAck sha256 m = Ret (OkR publishedDHTOffersAck).
Proof.
  intros version supported sha256 publishedDHTOffersAck.
  roundtrip EncodeGatewayListDHTOfferAck DecodeGatewayListDHTOfferAck GatewayListDHTOfferAckType
      gatewayListDHTOfferAck (publishedDHTOffersAck, tt).
Qed.

Lemma rt_GatewayListDHTOfferRequest : forall version supported sha256 (gatewayID : bytes) (cidMin : bytes) (cidMax :
    bytes) (blockHash : gostring) (transactionReceipt : gostring) (merkleRoot : gostring) (merkleProof : proof),
  id32 gatewayID -> id32 cidMin -> id32 cidMax -> wire_proof merkleProof ->
  exists m, EncodeGatewayListDHTOfferRequest version supported (Some gatewayID) (Some cidMin) (Some cidMax) blockHash
      transactionReceipt merkleRoot (Some merkleProof) = Ret m /\
    fresh version supported 200 m /\ DecodeGatewayListDHTOfferRequest sha256 m = Ret (OkR (Some gatewayID, Some
        cidMin, Some cidMax, blockHash, transactionReceipt, merkleRoot, Some merkleProof)).
Proof.
  intros version supported sha256 gatewayID cidMin cidMax blockHash transactionReceipt merkleRoot merkleProof.
  roundtrip EncodeGatewayListDHTOfferRequest DecodeGatewayListDHTOfferRequest GatewayListDHTOfferRequestType
      gatewayListDHTOfferRequest (ToString gatewayID, (ToString cidMin, (ToString cidMax, (blockHash,
      (transactionReceipt, (merkleRoot, (merkleProof, tt))))))).
Qed.

Lemma rt_GatewayListDHTOfferResponse : forall version supported sha256 (publishedDHTOffers : option (list message)),
  each wire_message publishedDHTOffers ->
  exists m, EncodeGatewayListDHTOfferResponse version supported publishedDHTOffers = Ret m /\
    fresh version supported 201 m /\ DecodeGatewayListDHTOfferResponse sha256 m = Ret (OkR publishedDHTOffers).
Proof.
  intros version supported sha256 publishedDHTOffers.
  roundtrip EncodeGatewayListDHTOfferResponse DecodeGatewayListDHTOfferResponse GatewayListDHTOfferResponseType
      gatewayListDHTOfferResponse (publishedDHTOffers, tt).
Qed.

Lemma rt_GatewayNotifyProviderGroupCIDOfferSupportRequest : forall version supported sha256 (gatewayID : bytes)
    (groupCIDOfferSupported : bool),
  id32 gatewayID ->
  exists m, EncodeGatewayNotifyProviderGroupCIDOfferSupportRequest version supported (Some gatewayID)
      groupCIDOfferSupported = Ret m /\
    fresh version supported 205 m /\ DecodeGatewayNotifyProviderGroupCIDOfferSupportRequest sha256 m = Ret (OkR (Some
        gatewayID, groupCIDOfferSupported)).
Proof.
  intros version supported sha256 gatewayID groupCIDOfferSupported.
  roundtrip EncodeGatewayNotifyProviderGroupCIDOfferSupportRequest
      DecodeGatewayNotifyProviderGroupCIDOfferSupportRequest GatewayNotifyProviderGroupCIDOfferSupportedRequestType
      gatewayNotifyProviderGroupCIDOfferSupportRequest (ToString gatewayID, (groupCIDOfferSupported, tt)).
Qed.

Lemma rt_GatewayNotifyProviderGroupCIDOfferSupportResponse : forall version supported sha256,
  exists m, EncodeGatewayNotifyProviderGroupCIDOfferSupportResponse version supported true = Ret m /\
    fresh version supported 206 m /\ DecodeGatewayNotifyProviderGroupCIDOfferSupportResponse sha256 m = Ret (OkR
        true).
Proof.
  intros version supported sha256.
  roundtrip EncodeGatewayNotifyProviderGroupCIDOfferSupportResponse
      DecodeGatewayNotifyProviderGroupCIDOfferSupportResponse GatewayNotifyProviderGroupCIDOfferSupportedResponseType
      gatewayNotifyProviderGroupCIDOfferSupportResponse (true, tt).
Qed.

Lemma rt_GatewayPingRequest : forall version supported sha256 (gatewayID : bytes) (nonce : Z) (ttl : Z),
  id32 gatewayID -> int64 nonce -> int64 ttl ->
  exists m, EncodeGatewayPingRequest version supported (Some gatewayID) nonce ttl = Ret m /\
    fresh version supported 205 m /\ DecodeGatewayPingRequest sha256 m = Ret (OkR (Some gatewayID, nonce, ttl)).
Proof.
  intros version supported sha256 gatewayID nonce ttl.
  roundtrip EncodeGatewayPingRequest DecodeGatewayPingRequest GatewayPingRequestType gatewayPingRequest (ToString
      gatewayID, (nonce, (ttl, tt))).
Qed.

Lemma rt_GatewayPingResponse : forall version supported sha256 (nonce : Z),
  int64 nonce ->
  exists m, EncodeGatewayPingResponse version supported nonce true = Ret m /\
    fresh version supported 206 m /\ DecodeGatewayPingResponse sha256 m = Ret (OkR (nonce, true)).
Proof.
  intros version supported sha256 nonce.
  roundtrip EncodeGatewayPingResponse DecodeGatewayPingResponse GatewayPingResponseType gatewayPingResponse (nonce,
      (true, tt)).
Qed.

Lemma rt_ProviderPublishDHTOfferRequest : forall version supported sha256 (providerID : bytes) (nonce : Z) (offers :
    option (list offer)),
  id32 providerID -> int64 nonce -> each (wire_offer sha256) offers -> each (fun o => length (o_cids o) = 1%nat)
      offers -> int64 (slice_len offers) ->
  exists m, EncodeProviderPublishDHTOfferRequest version supported (Some providerID) nonce offers = Ret m /\
    fresh version supported 302 m /\ DecodeProviderPublishDHTOfferRequest sha256 m = Ret (OkR (Some providerID,
        nonce, offers)).
Proof.
  intros version supported sha256 providerID nonce offers.
  roundtrip EncodeProviderPublishDHTOfferRequest DecodeProviderPublishDHTOfferRequest
      ProviderPublishDHTOfferRequestType providerPublishDHTOfferRequest (ToString providerID, (nonce, (slice_len
      offers, (offers, tt)))).
  replace (forallb _ _) with true; [reflexivity|]. symmetry. apply forallb_forall. intros x Hx. apply Nat.eqb_eq.
  destruct offers as [l|]; [|destruct Hx]. match goal with H : each (fun o => length (o_cids o) = 1%nat) _ |- _ => exact (proj1 (Forall_forall _ _) H x Hx) end.
Qed.

Lemma rt_ProviderPublishDHTOfferResponse : forall version supported sha256 (nonce : Z) (signature : gostring),
  int64 nonce ->
  exists m, EncodeProviderPublishDHTOfferResponse version supported nonce signature = Ret m /\
    fresh version supported 303 m /\ DecodeProviderPublishDHTOfferResponse sha256 m = Ret (OkR (nonce, signature)).
Proof.
  intros version supported sha256 nonce signature.
  roundtrip EncodeProviderPublishDHTOfferResponse DecodeProviderPublishDHTOfferResponse
      ProviderPublishDHTOfferResponseType providerPublishDHTOfferResponse (nonce, (signature, tt)).
Qed.

Lemma rt_ProviderPublishGroupOfferRequest : forall version supported sha256 (providerID : bytes) (nonce : Z) (offer_
    : offer),
  id32 providerID -> int64 nonce -> wire_offer sha256 offer_ ->
  exists m, EncodeProviderPublishGroupOfferRequest version supported (Some providerID) nonce (Some offer_) = Ret m /\
    fresh version supported 300 m /\ DecodeProviderPublishGroupOfferRequest sha256 m = Ret (OkR (Some providerID,
        nonce, Some offer_)).
Proof.
  intros version supported sha256 providerID nonce offer_.
  roundtrip EncodeProviderPublishGroupOfferRequest DecodeProviderPublishGroupOfferRequest
      ProviderPublishGroupOfferRequestType providerPublishGroupOfferRequest (ToString providerID, (nonce, (offer_,
      tt))).
Qed.

Lemma rt_ProviderPublishGroupOfferResponse : forall version supported sha256 (gatewayID : bytes) (digest : gostring),
  id32 gatewayID ->
  exists m, EncodeProviderPublishGroupOfferResponse version supported gatewayID digest = Ret m /\
    fresh version supported 301 m /\ DecodeProviderPublishGroupOfferResponse sha256 m = Ret (OkR (Some gatewayID,
        digest)).
Proof.
  intros version supported sha256 gatewayID digest.
  roundtrip EncodeProviderPublishGroupOfferResponse DecodeProviderPublishGroupOfferResponse
      ProviderPublishGroupOfferResponseType providerPublishGroupOfferResponse (ToString gatewayID, (digest, tt)).
Qed.

Lemma rt_GatewayAdminForceRefreshRequest : forall version supported sha256 (refresh : bool),
  exists m, EncodeGatewayAdminForceRefreshRequest version supported refresh = Ret m /\
    fresh version supported 406 m /\ DecodeGatewayAdminForceRefreshRequest sha256 m = Ret (OkR refresh).
Proof.
  intros version supported sha256 refresh.
  roundtrip EncodeGatewayAdminForceRefreshRequest DecodeGatewayAdminForceRefreshRequest
      GatewayAdminForceRefreshRequestType gatewayAdminForceRefreshRequest (refresh, tt).
Qed.

Lemma rt_GatewayAdminForceRefreshResponse : forall version supported sha256 (refreshed : bool),
  exists m, EncodeGatewayAdminForceRefreshResponse version supported refreshed = Ret m /\
    fresh version supported 407 m /\ DecodeGatewayAdminForceRefreshResponse sha256 m = Ret (OkR refreshed).
Proof.
  intros version supported sha256 refreshed.
  roundtrip EncodeGatewayAdminForceRefreshResponse DecodeGatewayAdminForceRefreshResponse
      GatewayAdminForceRefreshResponseType gatewayAdminForceRefreshResponse (refreshed, tt).
Qed.

Lemma rt_GatewayAdminGetReputationRequest : forall version supported sha256 (clientID : bytes),
  id32 clientID ->
  exists m, EncodeGatewayAdminGetReputationRequest version supported (Some clientID) = Ret m /\
    fresh version supported 402 m /\ DecodeGatewayAdminGetReputationRequest sha256 m = Ret (OkR (Some clientID)).
Proof.
  intros version supported sha256 clientID.
  roundtrip EncodeGatewayAdminGetReputationRequest DecodeGatewayAdminGetReputationRequest
      GatewayAdminGetReputationRequestType gatewayAdminGetReputationRequest (ToString clientID, tt).
Qed.

Lemma rt_GatewayAdminGetReputationResponse : forall version supported sha256 (clientID : bytes) (reputation : Z)
    (exists_ : bool),
  id32 clientID -> int64 reputation ->
  exists m, EncodeGatewayAdminGetReputationResponse version supported (Some clientID) reputation exists_ = Ret m /\
    fresh version supported 403 m /\ DecodeGatewayAdminGetReputationResponse sha256 m = Ret (OkR (Some clientID,
        reputation, exists_)).
Proof.
  intros version supported sha256 clientID reputation exists_.
  roundtrip EncodeGatewayAdminGetReputationResponse DecodeGatewayAdminGetReputationResponse
      GatewayAdminGetReputationResponseType gatewayAdminGetReputationResponse (ToString clientID, (reputation,
      (exists_, tt))).
Qed.

Lemma rt_GatewayAdminInitialiseKeyRequest : forall version supported sha256 (nodeID : bytes) (privateKey : bytes)
    (keyVersion : Z),
  id32 nodeID -> length privateKey = 32%nat -> uint32 keyVersion ->
  exists m, EncodeGatewayAdminInitialiseKeyRequest version supported (Some nodeID) (Some (KeyPair (Some privateKey)
      None x01)) (Some keyVersion) = Ret m /\
    fresh version supported 400 m /\ DecodeGatewayAdminInitialiseKeyRequest sha256 m = Ret (OkR (Some nodeID, Some
        (KeyPair (Some privateKey) None x01), Some keyVersion)).
Proof.
  intros version supported sha256 nodeID privateKey keyVersion.
  roundtrip EncodeGatewayAdminInitialiseKeyRequest DecodeGatewayAdminInitialiseKeyRequest
      GatewayAdminInitialiseKeyRequestType gatewayAdminInitialiseKeyRequest (ToString nodeID, (EncodePrivateKey
      (KeyPair (Some privateKey) None x01), (keyVersion, tt))).
Qed.

Lemma rt_GatewayAdminInitialiseKeyRequestV2 : forall version supported sha256 (nodeID : bytes) (privateKey : bytes)
    (keyVersion : Z) (walletPrivateKey : gostring) (lotusAP : gostring) (lotusAuthToken : gostring),
  id32 nodeID -> length privateKey = 32%nat -> uint32 keyVersion ->
  exists m, EncodeGatewayAdminInitialiseKeyRequestV2 version supported (Some nodeID) (Some (KeyPair (Some privateKey)
      None x01)) (Some keyVersion) walletPrivateKey lotusAP lotusAuthToken = Ret m /\
    fresh version supported 412 m /\ DecodeGatewayAdminInitialiseKeyRequestV2 sha256 m = Ret (OkR (Some nodeID, Some
        (KeyPair (Some privateKey) None x01), Some keyVersion, walletPrivateKey, lotusAP, lotusAuthToken)).
Proof.
  intros version supported sha256 nodeID privateKey keyVersion walletPrivateKey lotusAP lotusAuthToken.
  roundtrip EncodeGatewayAdminInitialiseKeyRequestV2 DecodeGatewayAdminInitialiseKeyRequestV2
      GatewayAdminInitialiseKeyRequestV2Type gatewayAdminInitialiseKeyRequestV2 (ToString nodeID, (EncodePrivateKey
      (KeyPair (Some privateKey) None x01), (keyVersion, (walletPrivateKey, (lotusAP, (lotusAuthToken, tt)))))).
Qed.

Lemma rt_GatewayAdminInitialiseKeyResponse : forall version supported sha256 (success : bool),
  exists m, EncodeGatewayAdminInitialiseKeyResponse version supported success = Ret m /\
    fresh version supported 401 m /\ DecodeGatewayAdminInitialiseKeyResponse sha256 m = Ret (OkR success).
Proof.
  intros version supported sha256 success.
  roundtrip EncodeGatewayAdminInitialiseKeyResponse DecodeGatewayAdminInitialiseKeyResponse
      GatewayAdminInitialiseKeyResponseType gatewayAdminInitialiseKeyResponse (success, tt).
Qed.

Lemma rt_GatewayAdminListDHTOfferRequest : forall version supported sha256 (refresh : bool),
  exists m, EncodeGatewayAdminListDHTOfferRequest version supported refresh = Ret m /\
    fresh version supported 410 m /\ DecodeGatewayAdminListDHTOfferRequest sha256 m = Ret (OkR refresh).
Proof.
  intros version supported sha256 refresh.
  roundtrip EncodeGatewayAdminListDHTOfferRequest DecodeGatewayAdminListDHTOfferRequest
      GatewayAdminListDHTOfferRequestType gatewayAdminListDHTOfferRequest (refresh, tt).
Qed.

Lemma rt_GatewayAdminListDHTOfferResponse : forall version supported sha256 (refreshed : bool),
  exists m, EncodeGatewayAdminListDHTOfferResponse version supported refreshed = Ret m /\
    fresh version supported 411 m /\ DecodeGatewayAdminListDHTOfferResponse sha256 m = Ret (OkR refreshed).
Proof.
  intros version supported sha256 refreshed.
  roundtrip EncodeGatewayAdminListDHTOfferResponse DecodeGatewayAdminListDHTOfferResponse
      GatewayAdminListDHTOfferResponseType gatewayAdminListDHTOfferResponse (refreshed, tt).
Qed.

Lemma rt_GatewayAdminSetReputationRequest : forall version supported sha256 (clientID : bytes) (reputation : Z),
  id32 clientID -> int64 reputation ->
  exists m, EncodeGatewayAdminSetReputationRequest version supported (Some clientID) reputation = Ret m /\
    fresh version supported 404 m /\ DecodeGatewayAdminSetReputationRequest sha256 m = Ret (OkR (Some clientID,
        reputation)).
Proof.
  intros version supported sha256 clientID reputation.
  roundtrip EncodeGatewayAdminSetReputationRequest DecodeGatewayAdminSetReputationRequest
      GatewayAdminSetReputationRequestType gatewayAdminSetReputationRequest (ToString clientID, (reputation, tt)).
Qed.

Lemma rt_GatewayAdminSetReputationResponse : forall version supported sha256 (clientID : bytes) (reputation : Z)
    (exists_ : bool),
  id32 clientID -> int64 reputation ->
  exists m, EncodeGatewayAdminSetReputationResponse version supported (Some clientID) reputation exists_ = Ret m /\
    fresh version supported 405 m /\ DecodeGatewayAdminSetReputationResponse sha256 m = Ret (OkR (Some clientID,
        reputation, exists_)).
Proof.
  intros version supported sha256 clientID reputation exists_.
  roundtrip EncodeGatewayAdminSetReputationResponse DecodeGatewayAdminSetReputationResponse
      GatewayAdminSetReputationResponseType gatewayAdminSetReputationResponse (ToString clientID, (reputation,
      (exists_, tt))).
Qed.

Lemma rt_UpdateGatewayGroupCIDOfferSupportRequest : forall version supported sha256 (nodeID : bytes) (providerIDs :
    list bytes),
  id32 nodeID -> Forall id32 providerIDs ->
  exists m, EncodeUpdateGatewayGroupCIDOfferSupportRequest version supported (Some nodeID) providerIDs = Ret m /\
    fresh version supported 408 m /\ DecodeUpdateGatewayGroupCIDOfferSupportRequest sha256 m = Ret (OkR (Some nodeID,
        providerIDs)).
Proof.
  intros version supported sha256 nodeID providerIDs.
  roundtrip EncodeUpdateGatewayGroupCIDOfferSupportRequest DecodeUpdateGatewayGroupCIDOfferSupportRequest
      GatewayAdminUpdateGatewayGroupCIDOfferSupportRequestType updateGatewayGroupCIDOfferSupportRequest (ToString
      nodeID, (ids_text providerIDs, tt)).
Qed.

Lemma rt_UpdateGatewayGroupCIDOfferSupportResponse : forall version supported sha256 (success : bool),
  exists m, EncodeUpdateGatewayGroupCIDOfferSupportResponse version supported success = Ret m /\
    fresh version supported 409 m /\ DecodeUpdateGatewayGroupCIDOfferSupportResponse sha256 m = Ret (OkR success).
Proof.
  intros version supported sha256 success.
  roundtrip EncodeUpdateGatewayGroupCIDOfferSupportResponse DecodeUpdateGatewayGroupCIDOfferSupportResponse
      GatewayAdminUpdateGatewayGroupCIDOfferSupportResponseType updateGatewayGroupCIDOfferSupportResponse (success,
      tt).
Qed.

Lemma rt_ProviderAdminForceRefreshRequest : forall version supported sha256 (refresh : bool),
  exists m, EncodeProviderAdminForceRefreshRequest version supported refresh = Ret m /\
    fresh version supported 508 m /\ DecodeProviderAdminForceRefreshRequest sha256 m = Ret (OkR refresh).
Proof.
  intros version supported sha256 refresh.
  roundtrip EncodeProviderAdminForceRefreshRequest DecodeProviderAdminForceRefreshRequest
      ProviderAdminForceRefreshRequestType providerAdminForceRefreshRequest (refresh, tt).
Qed.

Lemma rt_ProviderAdminForceRefreshResponse : forall version supported sha256 (refreshed : bool),
  exists m, EncodeProviderAdminForceRefreshResponse version supported refreshed = Ret m /\
    fresh version supported 509 m /\ DecodeProviderAdminForceRefreshResponse sha256 m = Ret (OkR refreshed).
Proof.
  intros version supported sha256 refreshed.
  roundtrip EncodeProviderAdminForceRefreshResponse DecodeProviderAdminForceRefreshResponse
      ProviderAdminForceRefreshResponseType providerAdminForceRefreshResponse (refreshed, tt).
Qed.

Lemma rt_ProviderAdminGetPublishedOfferRequest : forall version supported sha256 (gatewayIDs : list bytes),
  Forall id32 gatewayIDs ->
  exists m, EncodeProviderAdminGetPublishedOfferRequest version supported gatewayIDs = Ret m /\
    fresh version supported 506 m /\ DecodeProviderAdminGetPublishedOfferRequest sha256 m = Ret (OkR gatewayIDs).
Proof.
  intros version supported sha256 gatewayIDs.
  roundtrip EncodeProviderAdminGetPublishedOfferRequest DecodeProviderAdminGetPublishedOfferRequest
      ProviderAdminGetPublishedOfferRequestType providerAdminGetPublishedOfferRequest (ids_text gatewayIDs, tt).
Qed.

Lemma rt_ProviderAdminGetPublishedOfferResponse : forall version supported sha256 (exists_ : bool) (offers : option
    (list offer)),
  each (wire_offer sha256) offers ->
  exists m, EncodeProviderAdminGetPublishedOfferResponse version supported exists_ offers = Ret m /\
    fresh version supported 507 m /\ DecodeProviderAdminGetPublishedOfferResponse sha256 m = Ret (OkR (exists_,
        offers)).
Proof.
  intros version supported sha256 exists_ offers.
  roundtrip EncodeProviderAdminGetPublishedOfferResponse DecodeProviderAdminGetPublishedOfferResponse
      ProviderAdminGetPublishedOfferResponseType providerAdminGetPublishedOfferResponse (exists_, (offers, tt)).
Qed.

Lemma rt_ProviderAdminInitialiseKeyRequest : forall version supported sha256 (nodeID : bytes) (privateKey : bytes)
    (keyVersion : Z),
  id32 nodeID -> length privateKey = 32%nat -> uint32 keyVersion ->
  exists m, EncodeProviderAdminInitialiseKeyRequest version supported (Some nodeID) (Some (KeyPair (Some privateKey)
      None x01)) (Some keyVersion) = Ret m /\
    fresh version supported 500 m /\ DecodeProviderAdminInitialiseKeyRequest sha256 m = Ret (OkR (Some nodeID, Some
        (KeyPair (Some privateKey) None x01), Some keyVersion)).
Proof.
  intros version supported sha256 nodeID privateKey keyVersion.
  roundtrip EncodeProviderAdminInitialiseKeyRequest DecodeProviderAdminInitialiseKeyRequest
      ProviderAdminInitialiseKeyRequestType providerAdminInitialiseKeyRequest (ToString nodeID, (EncodePrivateKey
      (KeyPair (Some privateKey) None x01), (keyVersion, tt))).
Qed.

Lemma rt_ProviderAdminInitialiseKeyRequestV2 : forall version supported sha256 (nodeID : bytes) (privateKey : bytes)
    (keyVersion : Z) (walletPrivateKey : gostring) (lotusAP : gostring) (lotusAuthToken : gostring),
  id32 nodeID -> length privateKey = 32%nat -> uint32 keyVersion ->
  exists m, EncodeProviderAdminInitialiseKeyRequestV2 version supported (Some nodeID) (Some (KeyPair (Some
      privateKey) None x01)) (Some keyVersion) walletPrivateKey lotusAP lotusAuthToken = Ret m /\
    fresh version supported 510 m /\ DecodeProviderAdminInitialiseKeyRequestV2 sha256 m = Ret (OkR (Some nodeID, Some
        (KeyPair (Some privateKey) None x01), Some keyVersion, walletPrivateKey, lotusAP, lotusAuthToken)).
Proof.
  intros version supported sha256 nodeID privateKey keyVersion walletPrivateKey lotusAP lotusAuthToken.
  roundtrip EncodeProviderAdminInitialiseKeyRequestV2 DecodeProviderAdminInitialiseKeyRequestV2
      ProviderAdminInitialiseKeyRequestV2Type providerAdminInitialiseKeyRequestV2 (ToString nodeID, (EncodePrivateKey
      (KeyPair (Some privateKey) None x01), (keyVersion, (walletPrivateKey, (lotusAP, (lotusAuthToken, tt)))))).
Qed.

Lemma rt_ProviderAdminInitialiseKeyResponse : forall version supported sha256 (success : bool),
  exists m, EncodeProviderAdminInitialiseKeyResponse version supported success = Ret m /\
    fresh version supported 501 m /\ DecodeProviderAdminInitialiseKeyResponse sha256 m = Ret (OkR success).
Proof.
  intros version supported sha256 success.
  roundtrip EncodeProviderAdminInitialiseKeyResponse DecodeProviderAdminInitialiseKeyResponse
      ProviderAdminInitialiseKeyResponseType providerAdminInitialiseKeyResponse (success, tt).
Qed.

Lemma rt_ProviderAdminPublishDHTOfferRequest : forall version supported sha256 (cids : list bytes) (price : option
    (list Z)) (expiry : option (list Z)) (qos : option (list Z)),
  Forall id32 cids -> each uint64 price -> each int64 expiry -> each uint64 qos ->
  exists m, EncodeProviderAdminPublishDHTOfferRequest version supported cids price expiry qos = Ret m /\
    fresh version supported 504 m /\ DecodeProviderAdminPublishDHTOfferRequest sha256 m = Ret (OkR (cids, price,
        expiry, qos)).
Proof.
  intros version supported sha256 cids price expiry qos.
  roundtrip EncodeProviderAdminPublishDHTOfferRequest DecodeProviderAdminPublishDHTOfferRequest
      ProviderAdminPublishDHTOfferRequestType providerAdminPublishDHTOfferRequest (ids_text cids, (price, (expiry,
      (qos, tt)))).
Qed.

Lemma rt_ProviderAdminPublishDHTOfferResponse : forall version supported sha256 (received : bool),
  exists m, EncodeProviderAdminPublishDHTOfferResponse version supported received = Ret m /\
    fresh version supported 505 m /\ DecodeProviderAdminPublishDHTOfferResponse sha256 m = Ret (OkR received).
Proof.
  intros version supported sha256 received.
  roundtrip EncodeProviderAdminPublishDHTOfferResponse DecodeProviderAdminPublishDHTOfferResponse
      ProviderAdminPublishDHTOfferResponseType providerAdminPublishDHTOfferResponse (received, tt).
Qed.

Lemma rt_ProviderAdminPublishGroupOfferRequest : forall version supported sha256 (cids : list bytes) (price : Z)
    (expiry : Z) (qos : Z),
  Forall id32 cids -> uint64 price -> int64 expiry -> uint64 qos ->
  exists m, EncodeProviderAdminPublishGroupOfferRequest version supported cids price expiry qos = Ret m /\
    fresh version supported 502 m /\ DecodeProviderAdminPublishGroupOfferRequest sha256 m = Ret (OkR (cids, price,
        expiry, qos)).
Proof.
  intros version supported sha256 cids price expiry qos.
  roundtrip EncodeProviderAdminPublishGroupOfferRequest DecodeProviderAdminPublishGroupOfferRequest
      ProviderAdminPublishGroupOfferRequestType providerAdminPublishGroupOfferRequest (ids_text cids, (price,
      (expiry, (qos, tt)))).
Qed.

Lemma rt_ProviderAdminPublishGroupOfferResponse : forall version supported sha256 (received : bool),
  exists m, EncodeProviderAdminPublishGroupOfferResponse version supported received = Ret m /\
    fresh version supported 503 m /\ DecodeProviderAdminPublishGroupOfferResponse sha256 m = Ret (OkR received).
Proof.
  intros version supported sha256 received.
  roundtrip EncodeProviderAdminPublishGroupOfferResponse DecodeProviderAdminPublishGroupOfferResponse
      ProviderAdminPublishGroupOfferResponseType providerAdminPublishGroupOfferResponse (received, tt).
Qed.

Lemma rt_InvalidMessageResponse : forall version supported sha256,
  exists m, EncodeInvalidMessageResponse version supported = Ret m /\
    fresh version supported 902 m /\ DecodeInvalidMessageResponse sha256 m = Ret (OkR tt).
Proof.
  intros version supported sha256.
  roundtrip EncodeInvalidMessageResponse DecodeInvalidMessageResponse InvalidMessageResponseType
      invalidMessageResponse tt.
Qed.

Lemma rt_ProtocolChangeRequest : forall version supported sha256 (desiredVersion : Z),
  int32 desiredVersion ->
  exists m, EncodeProtocolChangeRequest version supported desiredVersion = Ret m /\
    fresh version supported 900 m /\ DecodeProtocolChangeRequest sha256 m = Ret (OkR desiredVersion).
Proof.
  intros version supported sha256 desiredVersion.
  roundtrip EncodeProtocolChangeRequest DecodeProtocolChangeRequest ProtocolChangeRequestType protocolChangeRequest
      (desiredVersion, tt).
Qed.

Lemma rt_ProtocolChangeResponse : forall version supported sha256 (success : bool),
  exists m, EncodeProtocolChangeResponse version supported success = Ret m /\
    fresh version supported 901 m /\ DecodeProtocolChangeResponse sha256 m = Ret (OkR success).
Proof.
  intros version supported sha256 success.
  roundtrip EncodeProtocolChangeResponse DecodeProtocolChangeResponse ProtocolChangeResponseType
      protocolChangeResponse (success, tt).
Qed.

(** ** Types *)

Ltac head e := match e with ?f _ => head f | _ => e end.


Definition type_of (k : kind) : Z :=
  match k with
  | KClientDHTDiscoverOfferRequest => ClientDHTDiscoverOfferRequestType
  | KClientDHTDiscoverOfferResponse => ClientDHTDiscoverOfferResponseType
  | KClientDHTDiscoverRequest => ClientDHTDiscoverRequestType
  | KClientDHTDiscoverRequestV2 => ClientDHTDiscoverRequestV2Type
  | KClientDHTDiscoverResponse => ClientDHTDiscoverResponseType
  | KClientDHTDiscoverResponseV2 => ClientDHTDiscoverResponseV2Type
  | KClientDHTOfferAckRequest => ClientDHTOfferAckRequestType
  | KClientDHTOfferAckResponse => ClientDHTOfferAckResponseType
  | KClientEstablishmentRequest => ClientEstablishmentRequestType
  | KClientEstablishmentResponse => ClientEstablishmentResponseType
  | KClientStandardDiscoverOfferRequest => ClientStandardDiscoverOfferRequestType
  | KClientStandardDiscoverOfferResponse => ClientStandardDiscoverOfferResponseType
  | KClientStandardDiscoverRequest => ClientStandardDiscoverRequestType
  | KClientStandardDiscoverRequestV2 => ClientStandardDiscoverRequestV2Type
  | KClientStandardDiscoverResponse => ClientStandardDiscoverResponseType
  | KClientStandardDiscoverResponseV2 => ClientStandardDiscoverResponseV2Type
  | KGatewayDHTDiscoverOfferRequest => GatewayDHTDiscoverOfferRequestType
  | KGatewayDHTDiscoverOfferResponse => GatewayDHTDiscoverOfferResponseType
  | KGatewayDHTDiscoverRequest => GatewayDHTDiscoverRequestType
  | KGatewayDHTDiscoverRequestV2 => GatewayDHTDiscoverRequestV2Type
  | KGatewayDHTDiscoverResponse => GatewayDHTDiscoverResponseType
  | KGatewayDHTDiscoverResponseV2 => GatewayDHTDiscoverResponseV2Type
  | KGatewayListDHTOfferAck => GatewayListDHTOfferAckType
  | KGatewayListDHTOfferRequest => GatewayListDHTOfferRequestType
  | KGatewayListDHTOfferResponse => GatewayListDHTOfferResponseType
  | KGatewayNotifyProviderGroupCIDOfferSupportRequest => GatewayNotifyProviderGroupCIDOfferSupportedRequestType
  | KGatewayNotifyProviderGroupCIDOfferSupportResponse => GatewayNotifyProviderGroupCIDOfferSupportedResponseType
  | KGatewayPingRequest => GatewayPingRequestType
  | KGatewayPingResponse => GatewayPingResponseType
  | KProviderPublishDHTOfferRequest => ProviderPublishDHTOfferRequestType
  | KProviderPublishDHTOfferResponse => ProviderPublishDHTOfferResponseType
  | KProviderPublishGroupOfferRequest => ProviderPublishGroupOfferRequestType
  | KProviderPublishGroupOfferResponse => ProviderPublishGroupOfferResponseType
  | KGatewayAdminForceRefreshRequest => GatewayAdminForceRefreshRequestType
  | KGatewayAdminForceRefreshResponse => GatewayAdminForceRefreshResponseType
  | KGatewayAdminGetReputationRequest => GatewayAdminGetReputationRequestType
  | KGatewayAdminGetReputationResponse => GatewayAdminGetReputationResponseType
  | KGatewayAdminInitialiseKeyRequest => GatewayAdminInitialiseKeyRequestType
  | KGatewayAdminInitialiseKeyRequestV2 => GatewayAdminInitialiseKeyRequestV2Type
  | KGatewayAdminInitialiseKeyResponse => GatewayAdminInitialiseKeyResponseType
  | KGatewayAdminListDHTOfferRequest => GatewayAdminListDHTOfferRequestType
  | KGatewayAdminListDHTOfferResponse => GatewayAdminListDHTOfferResponseType
  | KGatewayAdminSetReputationRequest => GatewayAdminSetReputationRequestType
  | KGatewayAdminSetReputationResponse => GatewayAdminSetReputationResponseType
  | KUpdateGatewayGroupCIDOfferSupportRequest => GatewayAdminUpdateGatewayGroupCIDOfferSupportRequestType
  | KUpdateGatewayGroupCIDOfferSupportResponse => GatewayAdminUpdateGatewayGroupCIDOfferSupportResponseType
  | KProviderAdminForceRefreshRequest => ProviderAdminForceRefreshRequestType
  | KProviderAdminForceRefreshResponse => ProviderAdminForceRefreshResponseType
  | KProviderAdminGetPublishedOfferRequest => ProviderAdminGetPublishedOfferRequestType
  | KProviderAdminGetPublishedOfferResponse => ProviderAdminGetPublishedOfferResponseType
  | KProviderAdminInitialiseKeyRequest => ProviderAdminInitialiseKeyRequestType
  | KProviderAdminInitialiseKeyRequestV2 => ProviderAdminInitialiseKeyRequestV2Type
  | KProviderAdminInitialiseKeyResponse => ProviderAdminInitialiseKeyResponseType
  | KProviderAdminPublishDHTOfferRequest => ProviderAdminPublishDHTOfferRequestType
  | KProviderAdminPublishDHTOfferResponse => ProviderAdminPublishDHTOfferResponseType
  | KProviderAdminPublishGroupOfferRequest => ProviderAdminPublishGroupOfferRequestType
  | KProviderAdminPublishGroupOfferResponse => ProviderAdminPublishGroupOfferResponseType
  | KInvalidMessageResponse => InvalidMessageResponseType
  | KProtocolChangeRequest => ProtocolChangeRequestType
  | KProtocolChangeResponse => ProtocolChangeResponseType
  end.

Lemma encode_type version supported tag s v m : encode version supported tag s v = Ret m -> m_type m = tag.
Proof. intros H. apply encode_fresh in H as (H & _). exact H. Qed.

Ltac strip H :=
  repeat match type of H with
  | obind ?x _ = Ret _ => destruct x; [cbn [obind] in H|discriminate H|discriminate H]
  end.

Lemma sends_type version supported k m : sends version supported k m -> m_type m = type_of k.
Proof.
  destruct k; cbn [sends type_of]; intros H; repeat match type of H with exists _, _ => destruct H as (? & H) end;
  match type of H with ?e = _ => let h := head e in unfold h in H end; strip H; apply encode_type in H; exact H.
Qed.

Lemma rejects_type sha256 k m : m_type m <> type_of k -> rejects sha256 k m.
Proof.
  intros H. destruct k; cbn [rejects type_of] in *;
  match goal with |- ?e = _ => let h := head e in unfold h end; unfold rbind; rewrite decode_tag by exact H; reflexivity.
Qed.

Lemma type_of_inj k k' : type_of k = type_of k' -> k = k' \/ confused k k' = true.
Proof. destruct k, k'; vm_compute; intros H; first [left; reflexivity | right; reflexivity | discriminate H]. Qed.

Lemma kinds_distinct_pf version supported sha256 k k' m :
  sends version supported k m -> k <> k' -> confused k k' = false -> rejects sha256 k' m.
Proof.
  intros S N C. apply rejects_type. rewrite (sends_type _ _ _ _ S). intros E.
  destruct (type_of_inj _ _ E) as [->|E']; congruence.
Qed.

(** ** Identifiers and panics *)

Lemma id_ptr_good s : id_or_nil (id_ptr s).
Proof.
  intros b H. unfold id_ptr, NewNodeIDFromHexString in H. destruct (hex_decode s) as [x|]; [|discriminate].
  destruct (Nat.ltb_spec WordSize (length x)); [discriminate|]. injection H as <-. apply left_pad_length. assumption.
Qed.

Lemma ids_good o l : ids_of_text o = Ret l -> ids_32 l.
Proof. intros H. exact (map_string_lengths _ _ H). Qed.

Definition has_offer (kt : gostring * ftype) : bool := match snd kt with TOffer | TOffers => true | _ => false end.

Lemma dec_fields_returns sha s f : forallb (fun kt => negb (has_offer kt)) s = true ->
  exists r, dec_fields sha s f = Ret r.
Proof.
  induction s as [|[k t] s IH]; cbn [forallb dec_fields]; intros H; [eauto|]. apply andb_true_iff in H as [H1 H2].
  destruct (IH H2) as (r & ->). destruct t; try discriminate H1; cbn [fdec obind]; eauto.
Qed.

Lemma decode_returns sha tag s m : forallb (fun kt => negb (has_offer kt)) s = true ->
  exists r, decode sha tag s m = Ret r.
Proof.
  intros H. unfold decode, unmarshal_body. destruct (negb _); [eauto|]. destruct (json_parse _) as [[]|]; eauto.
  destruct (dec_fields_returns sha s l H) as (r & ->). cbn [obind]. eauto.
Qed.

Lemma returns_pf sha k m : risky k = false -> returns sha k m.
Proof.
  destruct k; cbn [risky]; intros R; try discriminate R; clear R; cbn [returns];
  match goal with |- exists _, ?e = _ => let h := head e in unfold h end; unfold rbind;
  match goal with |- context [decode sha ?t ?s m] =>
    destruct (decode_returns sha t s m eq_refl) as ([v|] & D); rewrite D; cbn [obind]; [|eauto] end;
  repeat match goal with v : vals _ |- _ => cbn in v end;
  repeat match goal with v : (_ * _)%type |- _ => destruct v end; eauto.
Qed.

Ltac strip_ok H :=
  repeat match type of H with
  | obind ?x _ = Ret _ => let E := fresh "E" in destruct x eqn:E; [cbn [obind] in H|discriminate H|discriminate H]
  | match ?x with OkR _ => _ | ErrR => _ end = Ret _ => destruct x; [|discriminate H]
  | (let (_, _) := ?x in _) = Ret _ => destruct x
  | (if ?x then _ else _) = Ret _ => destruct x; [discriminate H|]
  end.

Lemma good_ids_pf sha k m : good_ids sha k m.
Proof.
  destruct k; cbn [good_ids]; try exact I; intros;
  match goal with H : ?e = Ret _ |- _ => let h := head e in unfold h, rbind in H; strip_ok H; injection H; intros; subst end;
  repeat (match goal with |- _ /\ _ => split end);
  first [apply id_ptr_good | eapply ids_good; eassumption].
Qed.

