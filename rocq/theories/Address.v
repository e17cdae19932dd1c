(** * Addresses: parsing and equality (address.rs, network.rs) *)
From Coq Require Import List NArith Bool Ascii String.
From Verif Require Import Str Num Net Types Ext Show.
Import ListNotations.
Open Scope N_scope.
Open Scope list_scope.

Section WithExt.
Context {E : Ext}.

(** [impl FromStr for Address] (address.rs:29-47). *)
Definition address_from_host (h : host) : address :=
  match h with HDomain d => Fqdn d | HIpv4 n => Ip (V4 n) | HIpv6 n => Ip (V6 n) end.
Definition address_from_str (s : str) : res ierr address :=
  let fallback (e : option ierr) :=
    match host_parse s with
    | Ok h => Ok (address_from_host h)
    | Err m => Err (match e with Some x => x | None => EDomain m end)
    | Panic => Panic
    end in
  if contains c_colon s then
    match parse_ip s with
    | Some i => Ok (Ip i)
    | None => fallback (Some EIpAddress)
    end
  else fallback None.

(** [impl From<ExplicitlyTypedAddress> for Address] (address.rs:49-56). *)
Definition address_of_typed (a : typed_address) : address :=
  match a with TFqdn _ d => Fqdn d | TIp i => Ip i end.

(** [impl PartialEq for Address] (address.rs:58-66).  [to_lower] is exact for
    ASCII domains, which is all [Host::parse] produces; see Str.v. *)
Definition address_eqb (a b : address) : bool :=
  match a, b with
  | Fqdn x, Fqdn y => str_eqb (to_lower x) (to_lower y)
  | Ip x, Ip y => ip_eqb x y
  | _, _ => false
  end.

(** [impl FromStr for AddressType] (address.rs:84-93). *)
Definition addr_type_from_str (s : str) : res ierr addr_type :=
  match assoc_str (to_upper s) [ (lit "IP4", IpV4); (lit "IP6", IpV6) ] with
  | Some t => Ok t
  | None => Err (UnknownAddressType s)
  end.

(** [impl TryFrom<(AddressType, &str)> for ExplicitlyTypedAddress]
    (address.rs:156-176). *)
Definition typed_address_try_from (t : addr_type) (s : str) : res ierr typed_address :=
  a <- address_from_str s ;;
  match a with
  | Ip i =>
      if negb (addr_type_eqb (ip_addr_type i) t)
      then Err (AddressTypeMismatch (ip_addr_type i) t)
      else Ok (TIp i)
  | Fqdn d => Ok (TFqdn t d)
  end.

(** [impl PartialEq for ExplicitlyTypedAddress] (address.rs:178-196). *)
Definition typed_address_eqb (a b : typed_address) : bool :=
  match a, b with
  | TFqdn t x, TFqdn u y => addr_type_eqb t u && str_eqb (to_lower x) (to_lower y)
  | TIp x, TIp y => ip_eqb x y
  | _, _ => false
  end.

(** [parse_network_type] (network.rs:17-24). *)
Definition parse_network_type (s : str) : res ierr unit :=
  if negb (str_eqb (to_upper s) (lit "IN")) then Err (gen "nettype must be IN") else Ok tt.

(** [parse_address_type] (network.rs:26-29). *)
Definition parse_address_type (s : str) : res ierr addr_type :=
  res_map_err (fun _ => gen "address type must be IP4 or IP6") (addr_type_from_str (to_upper s)).

(** [parse_unicast_address] (network.rs:31-33). *)
Definition parse_unicast_address (s : str) : res ierr address := address_from_str s.

End WithExt.
