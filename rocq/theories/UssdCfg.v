(** The USSD part of the configuration as it is edited on the VTY: /repo/src/hlr_ussd.c:40-122, hlr_vty.c:454-586. *)
From Verif Require Import Base PeerId Db Auth Gsup Router Hlr.

(** struct hlr_euse with its place in memory: entities are told apart by a number that is never used again.
    hlr_ussd.h:23-34 *)
Record euse := mk_euse { e_nr : nat; e_name : string }.
(** the union in struct hlr_ussd_route, hlr_ussd.h:12-21: a pointer to an internal handler or to an entity *)
Inductive aim := AInt (i : iuse) | AExt (nr : nat).
(** hlr->euse_list, ussd_routes, euse_default (hlr.h:64-65, 80) *)
Record ucfg := mk_ucfg { u_euses : list euse; u_routes : list (string * aim); u_default : option nat; u_next : nat }.
Definition ucfg0 : ucfg := mk_ucfg [] [] None 0.

(** euse_find, hlr_ussd.c:43-53 *)
Definition euse_find (c : ucfg) (n : string) : option euse := find (fun e => (e_name e =? n)%string) (u_euses c).
(** ussd_route_find_prefix, hlr_ussd.c:75-84 *)
Definition find_prefix (c : ucfg) (p : string) : option (string * aim) := find (fun r => (fst r =? p)%string) (u_routes c).
(** ussd_route_del, hlr_ussd.c:118-122, of the route found for [p]: that one list element *)
Fixpoint del_first (p : string) (l : list (string * aim)) : list (string * aim) :=
  match l with
  | [] => []
  | r :: l' => if (fst r =? p)%string then l' else r :: del_first p l'
  end.
(** euse_del, hlr_ussd.c:68-72, of the entity found for [n] *)
Fixpoint del_euse (n : string) (l : list euse) : list euse :=
  match l with
  | [] => []
  | e :: l' => if (e_name e =? n)%string then l' else e :: del_euse n l'
  end.

(** The commands, hlr_vty.c:454-586. *)
Inductive ucmd :=
| CRouteInt (p : string) (i : iuse)
| CRouteExt (p n : string)
| CNoRoute (p : string)
| CDefault (n : string)
| CNoDefault
| CEuse (n : string)
| CNoEuse (n : string).

Definition set_routes (c : ucfg) (l : list (string * aim)) : ucfg := mk_ucfg (u_euses c) l (u_default c) (u_next c).
(** hlr_vty.c:454-586 with the functions of hlr_ussd.c:40-122 that they call *)
Definition ucmd_run (c : ucfg) (x : ucmd) : ucfg :=
  match x with
  | CRouteInt p i =>      (* 454-467, ussd_route_prefix_alloc_int 87-101 *)
      match find_prefix c p with Some _ => c | None => set_routes c (u_routes c ++ [(p, AInt i)]) end
  | CRouteExt p n =>      (* 469-486, ussd_route_prefix_alloc_ext 103-116 *)
      match find_prefix c p, euse_find c n with
      | None, Some e => set_routes c (u_routes c ++ [(p, AExt (e_nr e))])
      | _, _ => c
      end
  | CNoRoute p =>         (* 488-500 *)
      match find_prefix c p with Some _ => set_routes c (del_first p (u_routes c)) | None => c end
  | CDefault n =>         (* 502-523 *)
      match euse_find c n with Some e => mk_ucfg (u_euses c) (u_routes c) (Some (e_nr e)) (u_next c) | None => c end
  | CNoDefault => mk_ucfg (u_euses c) (u_routes c) None (u_next c)   (* 525-532 *)
  | CEuse n =>            (* 549-568, euse_alloc 55-67 *)
      match euse_find c n with
      | Some _ => c
      | None => mk_ucfg (u_euses c ++ [mk_euse (u_next c) n]) (u_routes c) (u_default c) (S (u_next c))
      end
  | CNoEuse n =>          (* 570-586 *)
      match euse_find c n with
      | None => c
      | Some e => if match u_default c with Some x => (x =? e_nr e)%nat | None => false end then c
                  else mk_ucfg (del_euse n (u_euses c)) (u_routes c) (u_default c) (u_next c)
      end
  end.
Definition ucmds_run (c : ucfg) (l : list ucmd) : ucfg := fold_left ucmd_run l c.

(** What the pointers stand for when they are followed; [None]: the entity has been freed. *)
Definition euse_name (c : ucfg) (nr : nat) : option string :=
  match find (fun e => (e_nr e =? nr)%nat) (u_euses c) with Some e => Some (e_name e) | None => None end.
Definition aim_target (c : ucfg) (a : aim) : option ussd_target :=
  match a with AInt i => Some (TInt i) | AExt nr => match euse_name c nr with Some n => Some (TExt n) | None => None end end.
Fixpoint all_some {A} (l : list (option A)) : option (list A) :=
  match l with
  | [] => Some []
  | Some x :: l' => match all_some l' with Some r => Some (x :: r) | None => None end
  | None :: _ => None
  end.
(** the values of [k_ussd] and [k_euse_default] of Hlr.v *)
Definition route_table (c : ucfg) : option (list (string * ussd_target)) :=
  all_some (map (fun r => match aim_target c (snd r) with Some t => Some (fst r, t) | None => None end) (u_routes c)).
