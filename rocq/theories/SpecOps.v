(** Specification vocabulary for sequences of builder calls on a message (properties C27-C33). *)

From Coq Require Import Ascii String Arith NArith List Bool.
From Verif Require Import Bytes Base64 Json Value Types Message Attach Envelope Spec.
Import ListNotations.
Local Open Scope string_scope.

(** ** Calls *)

(** One call of a public builder method of [Message] (src/messages/message.rs:92-341, src/messages/attachment.rs:278-281).
    Clock readings are part of the call. *)
Inductive op :=
| OTo (xs : list string) | OFrom (s : string) | OBody (text : string) | OKid (s : string) | OTyp (t : message_type) | OType (s : string)
| OThid (s : string) | OPthid (s : string) | OTimed (clock expires : option N) | OField (k v : string)
| OJwm (h : jwm_header) | ODidcomm (d : didcomm_header) | OParent (p : message) | OReply (p : message)
| OJws (a : signature_algorithm) | OFlatJws (a : signature_algorithm)
| OJwe (a : crypto_algorithm) (key : option string) | OFlatJwe (a : crypto_algorithm) (key : option string)
| OAttach (now : string) (b : attachment_builder).

Definition step (E : env) (m : message) (o : op) : res message :=
  match o with
  | OTo xs => Ok (set_to m xs) | OFrom s => Ok (set_from m s) | OBody t => set_body (rt E 0) m t | OKid s => Ok (set_kid m s)
  | OTyp t => Ok (set_typ m t) | OType s => Ok (set_m_type m s) | OThid s => Ok (set_thid m s) | OPthid s => Ok (set_pthid m s)
  | OTimed c e => Ok (timed c m e) | OField k v => Ok (add_header_field m k v) | OJwm h => Ok (set_jwm_header m h)
  | ODidcomm d => Ok (set_didcomm_header m d) | OParent p => Ok (with_parent m p) | OReply p => Ok (reply_to m p)
  | OJws a => Ok (as_jws m a) | OFlatJws a => Ok (as_flat_jws m a)
  | OJwe a k => Ok (as_jwe (resolve E) m a k) | OFlatJwe a k => Ok (as_flat_jwe (resolve E) m a k)
  | OAttach now b => Ok (append_attachment now m b)
  end.
Fixpoint run (E : env) (m : message) (ops : list op) : res message :=
  match ops with [] => Ok m | o :: r => match step E m o with Ok m' => run E m' r | Err e => Err e | Panic => Panic end end.

(** ** Fields *)

Inductive field :=
| FTyp | FEnc | FKid | FSkid | FAlg | FJku | FJwk | FEpk | FCty
| FId | FThid | FPthid | FType | FTo | FFrom | FCreated | FExpires | FPrior | FThread | FOther
| FRecipients | FBody | FFlatJwe | FFlatJws | FAttachments.

Definition jwm_field_eq (f : field) (a b : jwm_header) : Prop :=
  match f with
  | FTyp => jh_typ a = jh_typ b | FEnc => jh_enc a = jh_enc b | FKid => jh_kid a = jh_kid b | FSkid => jh_skid a = jh_skid b
  | FAlg => jh_alg a = jh_alg b | FJku => jh_jku a = jh_jku b | FJwk => jh_jwk a = jh_jwk b | FEpk => jh_epk a = jh_epk b
  | FCty => jh_cty a = jh_cty b | _ => True
  end.
Definition did_field_eq (f : field) (a b : didcomm_header) : Prop :=
  match f with
  | FId => dh_id a = dh_id b | FThid => dh_thid a = dh_thid b | FPthid => dh_pthid a = dh_pthid b | FType => dh_type a = dh_type b
  | FTo => dh_to a = dh_to b | FFrom => dh_from a = dh_from b | FCreated => dh_created a = dh_created b
  | FExpires => dh_expires a = dh_expires b | FPrior => dh_from_prior a = dh_from_prior b | FThread => dh_thread a = dh_thread b
  | FOther => dh_other a = dh_other b | _ => True
  end.
Definition field_eq (f : field) (a b : message) : Prop :=
  jwm_field_eq f (m_jwm a) (m_jwm b) /\ did_field_eq f (m_did a) (m_did b) /\
  match f with
  | FRecipients => m_recipients a = m_recipients b | FBody => m_body a = m_body b | FFlatJwe => m_flat_jwe a = m_flat_jwe b
  | FFlatJws => m_flat_jws a = m_flat_jws b | FAttachments => m_attachments a = m_attachments b | _ => True
  end.

(** Which fields a call may write. *)
Definition jwm_fields : list field := [FTyp; FEnc; FKid; FSkid; FAlg; FJku; FJwk; FEpk; FCty].
Definition did_fields : list field := [FId; FThid; FPthid; FType; FTo; FFrom; FCreated; FExpires; FPrior; FThread; FOther].
Definition writes (o : op) : list field :=
  match o with
  | OTo _ => [FTo] | OFrom _ => [FFrom] | OBody _ => [FBody] | OKid _ => [FKid] | OTyp _ => [FTyp] | OType _ => [FType]
  | OThid _ => [FThid] | OPthid _ => [FPthid] | OTimed _ _ => [FCreated; FExpires] | OField _ _ => [FOther]
  | OJwm _ => jwm_fields | ODidcomm _ => did_fields | OParent _ => [FPthid] | OReply _ => [FThid; FPthid; FThread; FTo]
  | OJws _ => [FTyp; FAlg] | OFlatJws _ => [FTyp; FAlg; FFlatJws]
  | OJwe _ _ => [FTyp; FAlg; FEnc; FKid] | OFlatJwe _ _ => [FTyp; FAlg; FEnc; FKid; FFlatJwe]
  | OAttach _ _ => [FAttachments]
  end.

(** What a call that determines a field on its own leaves in it. Fields that a call computes from the old message
    ([to], custom headers, attachments, replies, resolved [kid]) are treated by separate theorems. *)
Definition enc_name (a : crypto_algorithm) : string :=
  match a with A256GCM => "A256GCM" | XC20P => "XC20P" | A256CBC => "ECDH-1PU+A256KW" end.
Definition alg_name (a : crypto_algorithm) : string :=
  match a with A256GCM => "ECDH-1PU+A256KW" | XC20P => "ECDH-1PU+XC20PKW" | A256CBC => "A256CBC" end.
Definition jws_name (a : signature_algorithm) : string :=
  match a with EdDsa => "EdDSA" | Es256 => "ES256" | Es256k => "ES256K" end.
Definition leaves (E : env) (o : op) (f : field) (m : message) : Prop :=
  match o, f with
  | OFrom s, FFrom => dh_from (m_did m) = Some s
  | OBody t, FBody => exists j, parse t = Some j /\ reads (rt E 0) j (m_body m)
  | OKid s, FKid => jh_kid (m_jwm m) = Some s
  | OTyp t, FTyp => jh_typ (m_jwm m) = t
  | OType s, FType => dh_type (m_did m) = s
  | OThid s, FThid => dh_thid (m_did m) = Some s
  | OPthid s, FPthid => dh_pthid (m_did m) = Some s
  | OTimed c e, FCreated => dh_created (m_did m) = c
  | OTimed c e, FExpires => dh_expires (m_did m) = e
  | OJwm h, _ => jwm_field_eq f (m_jwm m) h
  | ODidcomm d, _ => did_field_eq f (m_did m) d
  | OParent p, FPthid =>
      (exists t, dh_thid (m_did p) = Some t /\ dh_pthid (m_did m) = Some t) \/
      (dh_thid (m_did p) = None /\ dh_pthid (m_did m) = Some (dh_id (m_did p)))
  | (OJws a | OFlatJws a), FTyp => jh_typ (m_jwm m) = DidCommJws
  | (OJws a | OFlatJws a), FAlg => jh_alg (m_jwm m) = Some (jws_name a)
  | OFlatJws a, FFlatJws => m_flat_jws m = true
  | (OJwe a k | OFlatJwe a k), FTyp => jh_typ (m_jwm m) = DidCommJwe
  | (OJwe a k | OFlatJwe a k), FAlg => jh_alg (m_jwm m) = Some (alg_name a)
  | (OJwe a k | OFlatJwe a k), FEnc => jh_enc (m_jwm m) = Some (enc_name a)
  | (OJwe a k | OFlatJwe a k), FKid =>
      match k with Some key => exists t, rfc4648 key t /\ jh_kid (m_jwm m) = Some t | None => True end
  | OFlatJwe a k, FFlatJwe => m_flat_jwe m = true
  | _, _ => True
  end.

(** ** Threads *)

(** The thread a message belongs to: the thread decorator when it marks an implicit reply (another thread id than the
    message id and only zero orders), otherwise [thid]. *)
Definition marks_reply (t : thread) (id : string) : Prop :=
  th_thid t <> id /\ forall ro, th_received_orders t = Some ro -> forall k n, In (k, n) ro -> n = 0%N.
Inductive in_thread (m : message) : option string -> Prop :=
| it_decorator : forall t, dh_thread (m_did m) = Some t -> marks_reply t (dh_id (m_did m)) -> in_thread m (Some (th_thid t))
| it_thid : (forall t, dh_thread (m_did m) = Some t -> ~ marks_reply t (dh_id (m_did m))) -> in_thread m (dh_thid (m_did m)).

(** Replies to replies: each one a new message (without thread decorator) that calls [reply_to] on the previous one. *)
Inductive reply_chain (m0 : message) : message -> Prop :=
| rc_first : forall fresh, dh_thread (m_did fresh) = None -> reply_chain m0 (reply_to fresh m0)
| rc_next : forall fresh m, reply_chain m0 m -> dh_thread (m_did fresh) = None -> reply_chain m0 (reply_to fresh m).
