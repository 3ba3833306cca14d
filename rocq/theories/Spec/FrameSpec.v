(** Independent description of the Arrow frame format. *)
From Coq Require Import NArith List.
From Verif.Model Require Import Bytes Frame.
Import ListNotations.
Local Open Scope N_scope.

(** A message whose fields fit the wire format. *)
Definition wf_amsg (m : amsg) : Prop :=
  m_service m < 2 ^ 16 /\ m_session m < 2 ^ 24 /\ nlen (m_payload m) < 2 ^ 32.

(** The documented layout, written out byte by byte: version 2, service, reserved byte and 24-bit
    session, payload size, payload. *)
Definition frame_layout (m : amsg) : bytes :=
  let sv := m_service m in let se := m_session m in let sz := nlen (m_payload m) in
  [ 2;
    sv / 256; sv mod 256;
    0; se / 65536; se / 256 mod 256; se mod 256;
    sz / 16777216; sz / 65536 mod 256; sz / 256 mod 256; sz mod 256 ] ++ m_payload m.

(** A byte string that is the beginning of some frame but not a whole one. *)
Definition partial_frame (t : bytes) : Prop :=
  exists m s, wf_amsg m /\ s <> [] /\ frame_layout m = t ++ s.

(** What a reader must do with a buffer, stated on its bytes. *)
Definition frame_reading (buf : bytes) : decoded amsg :=
  match buf with
  | v :: s1 :: s0 :: e3 :: e2 :: e1 :: e0 :: z3 :: z2 :: z1 :: z0 :: body =>
      if N.eqb v 2 then
        let size := z3 * 16777216 + z2 * 65536 + z1 * 256 + z0 in
        if N.ltb (nlen body) size then DMore
        else DMsg {| m_service := s1 * 256 + s0;
                     m_session := e2 * 65536 + e1 * 256 + e0;
                     m_payload := firstn (N.to_nat size) body |}
                  (skipn (N.to_nat size) body)
      else DErr
  | _ => DMore
  end.
