(** Specification of which errors a call can return (C76). *)
From Coq Require Import ZArith List String.
From Verif Require Import Base.

(** The errors of the public calls. *)
Definition decode_list_error (e : error) : Prop := e = RegisterCount \/ e = UnknownModule.
Definition build_error (e : error) : Prop := e = BufferLength \/ e = ModuleOffsetError \/ e = ChannelParameter.
Definition request_error (e : error) : Prop := e = AddressError.
Definition cycle_error (e : error) : Prop := e = BufferLength \/ e = ModuleOffsetError \/ e = ChannelValueError.
