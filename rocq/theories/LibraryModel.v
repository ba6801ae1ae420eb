(** Loading the robot's model over a connection, and the example programs download_model.rs and
    print_joint_poses.rs of /repo/examples. *)
From Coq Require Import List ZArith NArith Bool String.
From Coq Require Import Init.Byte.
From Verif Require Import NumOps NumFloat WireModel StateModel TcpModel RobotModel LoopModel ModelApi.
Import ListNotations.
Open Scope list_scope.

(** The messages of exception.rs 51-53 (ModelException): the robot reports an error (network.rs 182-187), the file
    cannot be written (library_downloader.rs 37-42), the library cannot be opened or lacks a symbol
    (model_library.rs 83-94 and 309-315), the file cannot be copied (download_model.rs 29-31). *)
Inductive model_error := ServerReportsError | ErrorWriting | CannotOpen | CannotCopy.
(** Results of a call: [Failed] other exceptions, [NoModel] a ModelException, [Panicked], [Waiting] never returns,
    [NoFuel] is proved unreachable. *)
Inductive result (A : Type) := Done (a : A) | Failed (e : exn) | NoModel (e : model_error) | Panicked | Waiting | NoFuel.
Arguments Done {A}. Arguments Failed {A}. Arguments NoModel {A}. Arguments Panicked {A}. Arguments Waiting {A}. Arguments NoFuel {A}.

(** /tmp/model.so and the file download_model copies to; no other file is modelled *)
Record disk := Disk { d_model : file; d_target : file }.
(** What the operating system does: whether /tmp/model.so can be created, how much one write takes ([None]: an error),
    whether it can be removed; the dynamic linker, for libm and for a file with these contents; whether the target of
    the copy is /tmp/model.so itself, whether the copy succeeds and what a failing one leaves. *)
Record world := World {
  w_create : bool;
  w_written : option nat;
  w_remove : bool;
  w_libm : bool;
  w_linker : list byte -> option (string -> option (routine float));
  w_same : bool;
  w_copy : bool;
  w_left : file
}.

(** network.rs 172-197 with library_downloader.rs 23-36: request and response *)
Definition library_request (s : st) : result (list byte) * st :=
  match (id <- send_request ReqLoadModelLibrary ;; wait_response id) s with
  | (Ok m, s) => match load_library_response m with
                 | LOk p => (Done p, s)
                 | LError => (NoModel ServerReportsError, s)
                 | LPanic => (Panicked, s)
                 end
  | (Err e, s) => (Failed e, s)
  | (Panic _, s) => (Panicked, s)
  | (Blocked, s) => (Waiting, s)
  | (OutOfFuel, s) => (NoFuel, s)
  end.

Section Programs.
  Variable w : world.

  (** library_downloader.rs 37-43: File::create truncates, one write *)
  Definition store_library (p : list byte) : file -> file * bool := fun f =>
    if w_create w then
      match w_written w with
      | None => (Some [], false)
      | Some n => (Some (firstn n p), true)
      end
    else (f, false).

  (** robot_impl.rs 239-243: open the file, remove it *)
  Definition open_library (persistent already : bool) (d : disk) : result (model_library float) * disk :=
    match d_model d with
    | None => (NoModel CannotOpen, d)
    | Some b =>
        match library_new float (w_libm w) (w_linker w b) with
        | None => (NoModel CannotOpen, d)
        | Some l =>
            if negb persistent && already then
              if w_remove w then (Done l, Disk None (d_target d)) else (Panicked, d)
            else (Done l, d)
        end
    end.

  (** robot_impl.rs 233-244.  Nobody else changes the file during the call. *)
  Definition load_call (persistent : bool) (d : disk) (s : st) : result (model_library float) * disk * st :=
    match d_model d with
    | Some _ => (open_library persistent true d, s)
    | None =>
        match library_request s with
        | (Done p, s) =>
            let (f, ok) := store_library p (d_model d) in
            let d := Disk f (d_target d) in
            if ok then (open_library persistent false d, s) else (NoModel ErrorWriting, d, s)
        | (Failed e, s) => (Failed e, d, s)
        | (NoModel e, s) => (NoModel e, d, s)
        | (Panicked, s) => (Panicked, d, s)
        | (Waiting, s) => (Waiting, d, s)
        | (NoFuel, s) => (NoFuel, d, s)
        end
    end.

  (** std::fs::copy as used in download_model.rs 29: opens the source, creates or truncates the target, copies what the
      source then contains. If both are the same file it is empty afterwards. *)
  Definition copy_file (d : disk) : bool * disk :=
    match d_model d with
    | None => (false, d)
    | Some b =>
        if w_copy w then
          (true, if w_same w then Disk (Some []) (Some []) else Disk (d_model d) (Some b))
        else (false, if w_same w then Disk (w_left w) (w_left w) else Disk (d_model d) (w_left w))
    end.

  (** examples/download_model.rs 23-34, the target path being given; printing is left out *)
  Definition download_model (port : N) (d : disk) (s : st) : result unit * disk * st :=
    match robot_new port s with
    | (Ok _, s) =>
        match load_call true d s with
        | (Done _, d, s) => let (ok, d) := copy_file d in (if ok then Done tt else NoModel CannotCopy, d, s)
        | (Failed e, d, s) => (Failed e, d, s)
        | (NoModel e, d, s) => (NoModel e, d, s)
        | (Panicked, d, s) => (Panicked, d, s)
        | (Waiting, d, s) => (Waiting, d, s)
        | (NoFuel, d, s) => (NoFuel, d, s)
        end
    | (Err e, s) => (Failed e, d, s)
    | (Panic _, s) => (Panicked, d, s)
    | (Blocked, s) => (Waiting, d, s)
    | (OutOfFuel, s) => (NoFuel, d, s)
    end.

  (** examples/print_joint_poses.rs 20-30 *)
  Definition printed_frames : list frame := [Joint1; Joint2; Joint3; Joint4; Joint5; Joint6; Joint7; Flange; EndEffector].
  (** examples/print_joint_poses.rs 16-37: the poses it prints *)
  Definition print_joint_poses (port : N) (d : disk) (s : st) : result (list (frame * list (F float))) * disk * st :=
    match robot_new port s with
    | (Ok _, s) =>
        match load_call false d s with
        | (Done l, d, s) =>
            match read_once s with
            | (Ok x, s) => (Done (map (fun fr => (fr, pose_from_state l (user_state_of x) fr)) printed_frames), d, s)
            | (Err e, s) => (Failed e, d, s)
            | (Panic _, s) => (Panicked, d, s)
            | (Blocked, s) => (Waiting, d, s)
            | (OutOfFuel, s) => (NoFuel, d, s)
            end
        | (Failed e, d, s) => (Failed e, d, s)
        | (NoModel e, d, s) => (NoModel e, d, s)
        | (Panicked, d, s) => (Panicked, d, s)
        | (Waiting, d, s) => (Waiting, d, s)
        | (NoFuel, d, s) => (NoFuel, d, s)
        end
    | (Err e, s) => (Failed e, d, s)
    | (Panic _, s) => (Panicked, d, s)
    | (Blocked, s) => (Waiting, d, s)
    | (OutOfFuel, s) => (NoFuel, d, s)
    end.
End Programs.
