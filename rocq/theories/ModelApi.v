(** The robot model: /repo/src/model.rs, /repo/src/model/model_library.rs, /repo/src/model/library_downloader.rs
    and load_model of /repo/src/robot/robot_impl.rs. *)
From Coq Require Import List ZArith NArith Bool String.
From Coq Require Import Init.Byte.
From Verif Require Import NumOps NumFloat WireModel StateModel.
Import ListNotations.
Open Scope string_scope.
Open Scope list_scope.

(** model.rs 17-28 *)
Inductive frame := Joint1 | Joint2 | Joint3 | Joint4 | Joint5 | Joint6 | Joint7 | Flange | EndEffector | Stiffness.

Section Api.
  Variable O : num.
  Notation F := (F O).
  (** A routine of the shared library: the input arrays (a number passed by value is an array of one) to the
      output array, which the routines are taken to fill completely and to determine by the inputs. *)
  Definition routine := list (list F) -> list F.

  (** model_library.rs 13-74; the two library handles, which only keep the code loaded, are left out *)
  Record model_library := ModelLibrary {
    f_M_NE : routine;
    f_Ji_J_J1 : routine;
    f_Ji_J_J2 : routine;
    f_Ji_J_J3 : routine;
    f_Ji_J_J4 : routine;
    f_Ji_J_J5 : routine;
    f_Ji_J_J6 : routine;
    f_Ji_J_J7 : routine;
    f_Ji_J_J8 : routine;
    f_Ji_J_J9 : routine;
    f_O_J_J1 : routine;
    f_O_J_J2 : routine;
    f_O_J_J3 : routine;
    f_O_J_J4 : routine;
    f_O_J_J5 : routine;
    f_O_J_J6 : routine;
    f_O_J_J7 : routine;
    f_O_J_J8 : routine;
    f_O_J_J9 : routine;
    f_O_T_J1 : routine;
    f_O_T_J2 : routine;
    f_O_T_J3 : routine;
    f_O_T_J4 : routine;
    f_O_T_J5 : routine;
    f_O_T_J6 : routine;
    f_O_T_J7 : routine;
    f_O_T_J8 : routine;
    f_O_T_J9 : routine;
    f_c_NE : routine;
    f_g_NE : routine
  }.
  (** model_library.rs 78-168: symbols are looked up by name, in this order; [None] is ModelException.
      [sym] stands for the opened library (model_library.rs 309-315); opening can fail as a whole. *)
  Definition library_new (libm : bool) (lib_model : option (string -> option routine)) : option model_library :=
    if libm then
    match lib_model with None => None | Some sym =>
    match sym "M_NE" with None => None | Some s_M_NE =>
    match sym "Ji_J_J1" with None => None | Some s_Ji_J_J1 =>
    match sym "Ji_J_J2" with None => None | Some s_Ji_J_J2 =>
    match sym "Ji_J_J3" with None => None | Some s_Ji_J_J3 =>
    match sym "Ji_J_J4" with None => None | Some s_Ji_J_J4 =>
    match sym "Ji_J_J5" with None => None | Some s_Ji_J_J5 =>
    match sym "Ji_J_J6" with None => None | Some s_Ji_J_J6 =>
    match sym "Ji_J_J7" with None => None | Some s_Ji_J_J7 =>
    match sym "Ji_J_J8" with None => None | Some s_Ji_J_J8 =>
    match sym "Ji_J_J9" with None => None | Some s_Ji_J_J9 =>
    match sym "O_J_J1" with None => None | Some s_O_J_J1 =>
    match sym "O_J_J2" with None => None | Some s_O_J_J2 =>
    match sym "O_J_J3" with None => None | Some s_O_J_J3 =>
    match sym "O_J_J4" with None => None | Some s_O_J_J4 =>
    match sym "O_J_J5" with None => None | Some s_O_J_J5 =>
    match sym "O_J_J6" with None => None | Some s_O_J_J6 =>
    match sym "O_J_J7" with None => None | Some s_O_J_J7 =>
    match sym "O_J_J8" with None => None | Some s_O_J_J8 =>
    match sym "O_J_J9" with None => None | Some s_O_J_J9 =>
    match sym "O_T_J1" with None => None | Some s_O_T_J1 =>
    match sym "O_T_J2" with None => None | Some s_O_T_J2 =>
    match sym "O_T_J3" with None => None | Some s_O_T_J3 =>
    match sym "O_T_J4" with None => None | Some s_O_T_J4 =>
    match sym "O_T_J5" with None => None | Some s_O_T_J5 =>
    match sym "O_T_J6" with None => None | Some s_O_T_J6 =>
    match sym "O_T_J7" with None => None | Some s_O_T_J7 =>
    match sym "O_T_J8" with None => None | Some s_O_T_J8 =>
    match sym "O_T_J9" with None => None | Some s_O_T_J9 =>
    match sym "c_NE" with None => None | Some s_c_NE =>
    match sym "g_NE" with None => None | Some s_g_NE =>
      Some (ModelLibrary s_M_NE s_Ji_J_J1 s_Ji_J_J2 s_Ji_J_J3 s_Ji_J_J4 s_Ji_J_J5 s_Ji_J_J6 s_Ji_J_J7 s_Ji_J_J8 s_Ji_J_J9 s_O_J_J1 s_O_J_J2 s_O_J_J3 s_O_J_J4 s_O_J_J5 s_O_J_J6 s_O_J_J7 s_O_J_J8 s_O_J_J9 s_O_T_J1 s_O_T_J2 s_O_T_J3 s_O_T_J4 s_O_T_J5 s_O_T_J6 s_O_T_J7 s_O_T_J8 s_O_T_J9 s_c_NE s_g_NE)
    end end end end end end end end end end end end end end end end end end end end end end end end end end end end end end 
    end
    else None.

  (** model.rs 139-144: Matrix4 product of column-major arrays; the order of the additions is nalgebra's choice *)
  Definition mat4_mul (a b : list F) : list F :=
    map (fun k => let i := Nat.modulo k 4 in let j := Nat.div k 4 in
      let e m r c := nth (4 * c + r)%nat m (f_int O 0) in
      f_add O (f_add O (f_add O (f_mul O (e a i 0%nat) (e b 0%nat j)) (f_mul O (e a i 1%nat) (e b 1%nat j)))
        (f_mul O (e a i 2%nat) (e b 2%nat j))) (f_mul O (e a i 3%nat) (e b 3%nat j))) (seq 0 16).

  Variable l : model_library.
  (** model.rs 120-149 with model_library.rs 243-269 *)
  Definition pose (fr : frame) (q F_T_EE EE_T_K : list F) : list F :=
    match fr with
    | Joint1 => f_O_T_J1 l [q]
    | Joint2 => f_O_T_J2 l [q]
    | Joint3 => f_O_T_J3 l [q]
    | Joint4 => f_O_T_J4 l [q]
    | Joint5 => f_O_T_J5 l [q]
    | Joint6 => f_O_T_J6 l [q]
    | Joint7 => f_O_T_J7 l [q]
    | Flange => f_O_T_J8 l [q]
    | EndEffector => f_O_T_J9 l [q; F_T_EE]
    | Stiffness => f_O_T_J9 l [q; mat4_mul F_T_EE EE_T_K]
    end.
  (** model.rs 176-206 with model_library.rs 187-213 *)
  Definition body_jacobian (fr : frame) (q F_T_EE EE_T_K : list F) : list F :=
    match fr with
    | Joint1 => f_Ji_J_J1 l []
    | Joint2 => f_Ji_J_J2 l [q]
    | Joint3 => f_Ji_J_J3 l [q]
    | Joint4 => f_Ji_J_J4 l [q]
    | Joint5 => f_Ji_J_J5 l [q]
    | Joint6 => f_Ji_J_J6 l [q]
    | Joint7 => f_Ji_J_J7 l [q]
    | Flange => f_Ji_J_J8 l [q]
    | EndEffector => f_Ji_J_J9 l [q; F_T_EE]
    | Stiffness => f_Ji_J_J9 l [q; mat4_mul F_T_EE EE_T_K]
    end.
  (** model.rs 234-264 with model_library.rs 215-241 *)
  Definition zero_jacobian (fr : frame) (q F_T_EE EE_T_K : list F) : list F :=
    match fr with
    | Joint1 => f_O_J_J1 l []
    | Joint2 => f_O_J_J2 l [q]
    | Joint3 => f_O_J_J3 l [q]
    | Joint4 => f_O_J_J4 l [q]
    | Joint5 => f_O_J_J5 l [q]
    | Joint6 => f_O_J_J6 l [q]
    | Joint7 => f_O_J_J7 l [q]
    | Flange => f_O_J_J8 l [q]
    | EndEffector => f_O_J_J9 l [q; F_T_EE]
    | Stiffness => f_O_J_J9 l [q; mat4_mul F_T_EE EE_T_K]
    end.
  (** model.rs 290-301 with model_library.rs 169-186 *)
  Definition mass (q I_total : list F) (m_total : F) (F_x_Ctotal : list F) : list F :=
    f_M_NE l [q; I_total; [m_total]; F_x_Ctotal].
  (** model.rs 326-338 with model_library.rs 271-290 *)
  Definition coriolis (q dq I_total : list F) (m_total : F) (F_x_Ctotal : list F) : list F :=
    f_c_NE l [q; dq; I_total; [m_total]; F_x_Ctotal].
  (** model.rs 364-376 with model_library.rs 291-308 *)
  Definition gravity (q : list F) (m_total : F) (F_x_Ctotal : list F) (gravity_earth : option (list F)) : list F :=
    let g := match gravity_earth with Some g => g | None => [f_int O 0; f_int O 0; f_lit O (-981) 100] end in
    f_g_NE l [q; g; [m_total]; F_x_Ctotal].
End Api.

(** The variants taking a state, with the arithmetic of the program (arrays of the state are bit patterns). *)
Section FromState.
  Variable l : model_library float.
  Variable s : user_state.
  Let arr (a : list N) : list (F float) := map of_bits a.
  (** model.rs 158-165 *)
  Definition pose_from_state (fr : frame) := pose float l fr (arr (us_q s)) (arr (us_F_T_EE s)) (arr (us_EE_T_K s)).
  (** model.rs 216-223 *)
  Definition body_jacobian_from_state (fr : frame) := body_jacobian float l fr (arr (us_q s)) (arr (us_F_T_EE s)) (arr (us_EE_T_K s)).
  (** model.rs 273-280 *)
  Definition zero_jacobian_from_state (fr : frame) := zero_jacobian float l fr (arr (us_q s)) (arr (us_F_T_EE s)) (arr (us_EE_T_K s)).
  (** model.rs 307-314 *)
  Definition mass_from_state := mass float l (arr (us_q s)) (arr (us_I_total s)) (of_bits (us_m_total s)) (arr (us_F_x_Ctotal s)).
  (** model.rs 346-354 *)
  Definition coriolis_from_state :=
    coriolis float l (arr (us_q s)) (arr (us_dq s)) (arr (us_I_load s)) (of_bits (us_m_total s)) (arr (us_F_x_Ctotal s)).
  (** model.rs 384-395 *)
  Definition gravity_from_state (gravity_earth : option (list (F float))) :=
    gravity float l (arr (us_q s)) (of_bits (us_m_total s)) (arr (us_F_x_Ctotal s))
      (Some (match gravity_earth with Some g => g | None => arr (us_O_ddP_O s) end)).
End FromState.

(** * Loading *)
(** The file /tmp/model.so: its contents if it exists. Only this file is modelled. *)
Definition file := option (list byte).
(** The environment during one call: what the robot sends ([None]: an error of the transfer), whether the file can
    be created, how many bytes [Write::write] takes ([None]: an error; any number is allowed by its contract),
    whether the file can be removed. *)
Record env := Env {
  e_sent : option (list byte);
  e_create : bool;
  e_written : option nat;
  e_remove : bool
}.
Inductive load_result := Loaded | LoadError | LoadPanic.

Section Load.
  (** Does the dynamic linker accept these contents and find all symbols (model_library.rs 78-168)? *)
  Variable opens : list byte -> bool.

  (** library_downloader.rs 21-53 on linux/x86_64: the transfer, File::create (which truncates), one write *)
  Definition download (e : env) (f : file) : file * bool :=
    match e_sent e with
    | None => (f, false)
    | Some b =>
        if e_create e then
          match e_written e with
          | None => (Some [], false)
          | Some n => (Some (firstn n b), true)
          end
        else (f, false)
    end.

  (** robot_impl.rs 233-244 *)
  Definition load_model (persistent : bool) (e : env) (f : file) : file * load_result :=
    let model_already_downloaded := match f with Some _ => true | None => false end in
    let after := if model_already_downloaded then (f, true) else download e f in
    if snd after then
      match fst after with
      | None => (None, LoadError)
      | Some b =>
          if opens b then
            if negb persistent && model_already_downloaded then
              if e_remove e then (None, Loaded) else (fst after, LoadPanic)
            else (fst after, Loaded)
          else (fst after, LoadError)
      end
    else (fst after, LoadError).
End Load.
