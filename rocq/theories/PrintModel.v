(** The text of wallets (__str__ of nbc/wallet/address.py and nbc/wallet/hdwallet.py). *)
From Coq Require Import String ZArith List Bool.
From Verif Require Import PyBase KeyModel WalletModel.
Import ListNotations.
Open Scope string_scope.
Open Scope list_scope.
Open Scope Z_scope.

(** What '%s' makes of the bytes of an address, which are printable and contain
    neither quotes nor backslashes: under Python 2 the characters themselves,
    under Python 3 the literal. *)
Definition shown (py2 : bool) (b : bytes) : bytes := if py2 then b else bs "b'" ++ b ++ bs "'".
(** address.py:168-169 and hdwallet.py:289-290. *)
Definition redacted (private : bool) : bytes := if private then bs "**redacted**" else bs "None".
(** address.py:167-170 [Address.__str__]; an empty private key counts as none. *)
Definition address_str (py2 : bool) (a : address) : bytes :=
  bs "<Address address=" ++ shown py2 (ad_address a) ++ bs " private=" ++ redacted (match ad_priv a with Some (_ :: _) => true | _ => false end) ++ bs ">".

Section Print.
  Variable sha256 sha512 ripemd160 : bytes -> bytes.
  Variable cv : curve_info.
  (** hdwallet.py:288-291 [HDWallet.__str__]; the private key is a number, 0 counts as none. *)
  Definition hd_str (py2 : bool) (w : hdwallet) : res bytes :=
    let private := match hd_key w with HPriv d => negb (d =? 0) | HPub _ => false end in
    let! t := hd_address sha256 sha512 ripemd160 cv w None in
    Ok (bs "<HD address=" ++ shown py2 t ++ bs " private=" ++ redacted private ++ bs ">").
  (** str of either kind of wallet. *)
  Definition wallet_str (py2 : bool) (v : wallet) : res bytes :=
    match v with WAddress a => Ok (address_str py2 a) | WHD w => hd_str py2 w end.
End Print.
