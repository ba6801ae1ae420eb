(** Error flags and error sets: /repo/src/robot/error.rs, errors.rs, types.rs 155-189. *)
From Coq Require Import List NArith Bool Arith String.
Import ListNotations.
Open Scope string_scope.

(** error.rs 13-99 *)
Inductive franka_error :=
  | JointPositionLimitsViolation | CartesianPositionLimitsViolation
  | SelfCollisionAvoidanceViolation | JointVelocityViolation | CartesianVelocityViolation
  | ForceControlSafetyViolation | JointReflex | CartesianReflex | MaxGoalPoseDeviationViolation
  | MaxPathPoseDeviationViolation | CartesianVelocityProfileSafetyViolation
  | JointPositionMotionGeneratorStartPoseInvalid | JointMotionGeneratorPositionLimitsViolation
  | JointMotionGeneratorVelocityLimitsViolation | JointMotionGeneratorVelocityDiscontinuity
  | JointMotionGeneratorAccelerationDiscontinuity
  | CartesianPositionMotionGeneratorStartPoseInvalid
  | CartesianMotionGeneratorElbowLimitViolation | CartesianMotionGeneratorVelocityLimitsViolation
  | CartesianMotionGeneratorVelocityDiscontinuity
  | CartesianMotionGeneratorAccelerationDiscontinuity
  | CartesianMotionGeneratorElbowSignInconsistent | CartesianMotionGeneratorStartElbowInvalid
  | ForceControllerDesiredForceToleranceViolation | StartElbowSignInconsistent
  | CommunicationConstraintsViolation | PowerLimitViolation
  | CartesianMotionGeneratorJointPositionLimitsViolation
  | CartesianMotionGeneratorJointVelocityLimitsViolation
  | CartesianMotionGeneratorJointVelocityDiscontinuity
  | CartesianMotionGeneratorJointAccelerationDiscontinuity
  | CartesianPositionMotionGeneratorInvalidFrame | ControllerTorqueDiscontinuity
  | JointP2PInsufficientTorqueForPlanning | TauJRangeViolation | InstabilityDetection
  | JointMoveInWrongDirection | CartesianSplineViolation | JointViaPlanLimitViolation
  | BaseAccelerationInitializationTimeout | BaseAccelerationInvalidReading.

(** error.rs 15-98: the discriminants. *)
Definition error_code (e : franka_error) : nat :=
  match e with
  | JointPositionLimitsViolation => 0
  | CartesianPositionLimitsViolation => 1
  | SelfCollisionAvoidanceViolation => 2
  | JointVelocityViolation => 3
  | CartesianVelocityViolation => 4
  | ForceControlSafetyViolation => 5
  | JointReflex => 6
  | CartesianReflex => 7
  | MaxGoalPoseDeviationViolation => 8
  | MaxPathPoseDeviationViolation => 9
  | CartesianVelocityProfileSafetyViolation => 10
  | JointPositionMotionGeneratorStartPoseInvalid => 11
  | JointMotionGeneratorPositionLimitsViolation => 12
  | JointMotionGeneratorVelocityLimitsViolation => 13
  | JointMotionGeneratorVelocityDiscontinuity => 14
  | JointMotionGeneratorAccelerationDiscontinuity => 15
  | CartesianPositionMotionGeneratorStartPoseInvalid => 16
  | CartesianMotionGeneratorElbowLimitViolation => 17
  | CartesianMotionGeneratorVelocityLimitsViolation => 18
  | CartesianMotionGeneratorVelocityDiscontinuity => 19
  | CartesianMotionGeneratorAccelerationDiscontinuity => 20
  | CartesianMotionGeneratorElbowSignInconsistent => 21
  | CartesianMotionGeneratorStartElbowInvalid => 22
  | ForceControllerDesiredForceToleranceViolation => 23
  | StartElbowSignInconsistent => 24
  | CommunicationConstraintsViolation => 25
  | PowerLimitViolation => 26
  | CartesianMotionGeneratorJointPositionLimitsViolation => 27
  | CartesianMotionGeneratorJointVelocityLimitsViolation => 28
  | CartesianMotionGeneratorJointVelocityDiscontinuity => 29
  | CartesianMotionGeneratorJointAccelerationDiscontinuity => 30
  | CartesianPositionMotionGeneratorInvalidFrame => 31
  | ControllerTorqueDiscontinuity => 32
  | JointP2PInsufficientTorqueForPlanning => 33
  | TauJRangeViolation => 34
  | InstabilityDetection => 35
  | JointMoveInWrongDirection => 36
  | CartesianSplineViolation => 37
  | JointViaPlanLimitViolation => 38
  | BaseAccelerationInitializationTimeout => 39
  | BaseAccelerationInvalidReading => 40
  end.

(** [FrankaError::from_i32], derived by num_derive from the discriminants. *)
Definition error_of_code (i : nat) : option franka_error :=
  match i with
  | 0 => Some JointPositionLimitsViolation
  | 1 => Some CartesianPositionLimitsViolation
  | 2 => Some SelfCollisionAvoidanceViolation
  | 3 => Some JointVelocityViolation
  | 4 => Some CartesianVelocityViolation
  | 5 => Some ForceControlSafetyViolation
  | 6 => Some JointReflex
  | 7 => Some CartesianReflex
  | 8 => Some MaxGoalPoseDeviationViolation
  | 9 => Some MaxPathPoseDeviationViolation
  | 10 => Some CartesianVelocityProfileSafetyViolation
  | 11 => Some JointPositionMotionGeneratorStartPoseInvalid
  | 12 => Some JointMotionGeneratorPositionLimitsViolation
  | 13 => Some JointMotionGeneratorVelocityLimitsViolation
  | 14 => Some JointMotionGeneratorVelocityDiscontinuity
  | 15 => Some JointMotionGeneratorAccelerationDiscontinuity
  | 16 => Some CartesianPositionMotionGeneratorStartPoseInvalid
  | 17 => Some CartesianMotionGeneratorElbowLimitViolation
  | 18 => Some CartesianMotionGeneratorVelocityLimitsViolation
  | 19 => Some CartesianMotionGeneratorVelocityDiscontinuity
  | 20 => Some CartesianMotionGeneratorAccelerationDiscontinuity
  | 21 => Some CartesianMotionGeneratorElbowSignInconsistent
  | 22 => Some CartesianMotionGeneratorStartElbowInvalid
  | 23 => Some ForceControllerDesiredForceToleranceViolation
  | 24 => Some StartElbowSignInconsistent
  | 25 => Some CommunicationConstraintsViolation
  | 26 => Some PowerLimitViolation
  | 27 => Some CartesianMotionGeneratorJointPositionLimitsViolation
  | 28 => Some CartesianMotionGeneratorJointVelocityLimitsViolation
  | 29 => Some CartesianMotionGeneratorJointVelocityDiscontinuity
  | 30 => Some CartesianMotionGeneratorJointAccelerationDiscontinuity
  | 31 => Some CartesianPositionMotionGeneratorInvalidFrame
  | 32 => Some ControllerTorqueDiscontinuity
  | 33 => Some JointP2PInsufficientTorqueForPlanning
  | 34 => Some TauJRangeViolation
  | 35 => Some InstabilityDetection
  | 36 => Some JointMoveInWrongDirection
  | 37 => Some CartesianSplineViolation
  | 38 => Some JointViaPlanLimitViolation
  | 39 => Some BaseAccelerationInitializationTimeout
  | 40 => Some BaseAccelerationInvalidReading
  | _ => None
  end.

(** error.rs 101-105: [Display] prints the [Debug] name. *)
Definition error_name (e : franka_error) : string :=
  match e with
  | JointPositionLimitsViolation => "JointPositionLimitsViolation"
  | CartesianPositionLimitsViolation => "CartesianPositionLimitsViolation"
  | SelfCollisionAvoidanceViolation => "SelfCollisionAvoidanceViolation"
  | JointVelocityViolation => "JointVelocityViolation"
  | CartesianVelocityViolation => "CartesianVelocityViolation"
  | ForceControlSafetyViolation => "ForceControlSafetyViolation"
  | JointReflex => "JointReflex"
  | CartesianReflex => "CartesianReflex"
  | MaxGoalPoseDeviationViolation => "MaxGoalPoseDeviationViolation"
  | MaxPathPoseDeviationViolation => "MaxPathPoseDeviationViolation"
  | CartesianVelocityProfileSafetyViolation => "CartesianVelocityProfileSafetyViolation"
  | JointPositionMotionGeneratorStartPoseInvalid => "JointPositionMotionGeneratorStartPoseInvalid"
  | JointMotionGeneratorPositionLimitsViolation => "JointMotionGeneratorPositionLimitsViolation"
  | JointMotionGeneratorVelocityLimitsViolation => "JointMotionGeneratorVelocityLimitsViolation"
  | JointMotionGeneratorVelocityDiscontinuity => "JointMotionGeneratorVelocityDiscontinuity"
  | JointMotionGeneratorAccelerationDiscontinuity => "JointMotionGeneratorAccelerationDiscontinuity"
  | CartesianPositionMotionGeneratorStartPoseInvalid => "CartesianPositionMotionGeneratorStartPoseInvalid"
  | CartesianMotionGeneratorElbowLimitViolation => "CartesianMotionGeneratorElbowLimitViolation"
  | CartesianMotionGeneratorVelocityLimitsViolation => "CartesianMotionGeneratorVelocityLimitsViolation"
  | CartesianMotionGeneratorVelocityDiscontinuity => "CartesianMotionGeneratorVelocityDiscontinuity"
  | CartesianMotionGeneratorAccelerationDiscontinuity => "CartesianMotionGeneratorAccelerationDiscontinuity"
  | CartesianMotionGeneratorElbowSignInconsistent => "CartesianMotionGeneratorElbowSignInconsistent"
  | CartesianMotionGeneratorStartElbowInvalid => "CartesianMotionGeneratorStartElbowInvalid"
  | ForceControllerDesiredForceToleranceViolation => "ForceControllerDesiredForceToleranceViolation"
  | StartElbowSignInconsistent => "StartElbowSignInconsistent"
  | CommunicationConstraintsViolation => "CommunicationConstraintsViolation"
  | PowerLimitViolation => "PowerLimitViolation"
  | CartesianMotionGeneratorJointPositionLimitsViolation => "CartesianMotionGeneratorJointPositionLimitsViolation"
  | CartesianMotionGeneratorJointVelocityLimitsViolation => "CartesianMotionGeneratorJointVelocityLimitsViolation"
  | CartesianMotionGeneratorJointVelocityDiscontinuity => "CartesianMotionGeneratorJointVelocityDiscontinuity"
  | CartesianMotionGeneratorJointAccelerationDiscontinuity => "CartesianMotionGeneratorJointAccelerationDiscontinuity"
  | CartesianPositionMotionGeneratorInvalidFrame => "CartesianPositionMotionGeneratorInvalidFrame"
  | ControllerTorqueDiscontinuity => "ControllerTorqueDiscontinuity"
  | JointP2PInsufficientTorqueForPlanning => "JointP2PInsufficientTorqueForPlanning"
  | TauJRangeViolation => "TauJRangeViolation"
  | InstabilityDetection => "InstabilityDetection"
  | JointMoveInWrongDirection => "JointMoveInWrongDirection"
  | CartesianSplineViolation => "CartesianSplineViolation"
  | JointViaPlanLimitViolation => "JointViaPlanLimitViolation"
  | BaseAccelerationInitializationTimeout => "BaseAccelerationInitializationTimeout"
  | BaseAccelerationInvalidReading => "BaseAccelerationInvalidReading"
  end.

(** types.rs 170-179 / 180-189: copy 32 and then 9 flags into an array of 41. *)
Definition combine_flags (a b : list bool) : list bool := a ++ b.

(** errors.rs 35-40: enumerate, filter, map; [None] is the panic of the [unwrap]. *)
Fixpoint errors_from (i : nat) (flags : list bool) : option (list franka_error) :=
  match flags with
  | [] => Some []
  | x :: r =>
      match errors_from (S i) r with
      | None => None
      | Some es => if x then match error_of_code i with Some e => Some (e :: es) | None => None end
                   else Some es
      end
  end.
Definition franka_errors (a b : list bool) : option (list franka_error) :=
  errors_from 0 (combine_flags a b).

(** errors.rs 43-45 *)
Definition error_eqb (a b : franka_error) : bool := Nat.eqb (error_code a) (error_code b).
Definition contains (es : list franka_error) (e : franka_error) : bool := existsb (error_eqb e) es.

(** errors.rs 48-65: the opening bracket, then each error quoted, the closing bracket only
    behind the last one. *)
Definition dquote : string := String (Ascii.ascii_of_nat 34) "".
Fixpoint display_items (es : list franka_error) : string :=
  match es with
  | [] => ""
  | [e] => dquote ++ error_name e ++ dquote ++ "]"
  | e :: r => dquote ++ error_name e ++ dquote ++ ", " ++ display_items r
  end.
Definition display_errors (es : list franka_error) : string := "[" ++ display_items es.
