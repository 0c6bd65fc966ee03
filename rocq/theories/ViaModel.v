(** Via headers: src/osipparser2/osip_via.c. *)
From Coq Require Import String ZArith Ascii Bool List.
From Verif Require Import Base Str Types.
Import ListNotations.

Definition has_colon (s : str) : bool := match strchr s ":"%char with Some _ => true | None => false end.

(** ";name" or ";name=value": the parameter loop of osip_via_to_str (osip_via.c 318-334), also
    osip_from.c 330-350, osip_content_type.c 160-185 ... *)
Definition print_param (p : param) : str :=
  match snd p with
  | None => ";"%char :: fst p
  | Some v => ";"%char :: fst p ++ "="%char :: v
  end.
Definition print_params (ps : list param) : str := flat_map print_param ps.

(** osip_via_to_str: osip_via.c 279-344 *)
Definition via_to_str (v : via) : res str :=
  match v_host v, v_version v, v_protocol v with
  | Some h, Some ver, Some pr =>
    let host := if has_colon h then ("["%char :: h) ++ ["]"%char] else h in
    let port := match v_port v with None => [] | Some p => ":"%char :: p end in
    let comment := match v_comment v with None => [] | Some c => $" (" ++ c ++ $")" end in
    Ok ($"SIP/" ++ ver ++ "/"%char :: pr ++ " "%char :: host ++ port ++ print_params (v_params v) ++ comment)
  | _, _, _ => Err OSIP_BADPARAMETER
  end.
