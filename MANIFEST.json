{
 "claims": [
  {
   "property": "C01",
   "status": "proved",
   "theorems": [
    "C01_robot_ids",
    "C01_gripper_ids",
    "C01_exhaustion"
   ],
   "note": ""
  },
  {
   "property": "C02",
   "status": "proved",
   "theorems": [
    "C02_responses_exact",
    "C02_bad_header"
   ],
   "note": "Socket errors other than end of stream are not modelled. Headers the peer should not send are treated in C02_bad_header."
  },
  {
   "property": "C03",
   "status": "partial",
   "theorems": [
    "C03_delivery_refuted",
    "C03_coalesced_never_delivered",
    "C03_long_never_delivered",
    "C03_delivery_partial"
   ],
   "note": "False in general: refuted for two coalesced responses and for messages longer than the peek window; proved for one response (at most 70000 bytes) in flight with any segmentation."
  },
  {
   "property": "C04",
   "status": "partial",
   "theorems": [
    "C04_check_nonblocking_refuted",
    "C04_check_blocks_iff",
    "C04_check_nonblocking_partial"
   ],
   "note": "False in general: refuted; exact blocking condition proved."
  },
  {
   "property": "C05",
   "status": "proved",
   "theorems": [
    "C05_state_decoding_exact",
    "C05_state_accepted_iff"
   ],
   "note": "f64 values are transported as 64-bit patterns, so equality is bit for bit."
  },
  {
   "property": "C06",
   "status": "proved",
   "theorems": [
    "C06_request_layout",
    "C06_request_injective"
   ],
   "note": ""
  },
  {
   "property": "C07",
   "status": "proved",
   "theorems": [
    "C07_command_layout",
    "C07_command_injective",
    "C07_command_decoding_exact"
   ],
   "note": ""
  },
  {
   "property": "C08",
   "status": "proved",
   "theorems": [
    "C08_gripper_request_layout",
    "C08_gripper_request_injective",
    "C08_gripper_state_decoding_exact"
   ],
   "note": "Injectivity holds up to the default epsilon: grasp(None) and grasp(Some 0.005) send the same bytes."
  },
  {
   "property": "C09",
   "status": "partial",
   "theorems": [
    "C09_received_content",
    "C09_single_datagram_partial",
    "C09_single_datagram_refuted",
    "C09_outcome"
   ],
   "note": "False in general: refuted when a short datagram follows a full one in the same drain; proved when every datagram of the burst has full size."
  },
  {
   "property": "C10",
   "status": "partial",
   "theorems": [
    "C10_reply_address_partial",
    "C10_reply_address_refuted"
   ],
   "note": "False in general: refuted when datagrams of two senders are drained together; proved when all come from one address."
  },
  {
   "property": "C11",
   "status": "proved",
   "theorems": [
    "C11_states_increase",
    "C11_read_returns_shown",
    "C11_torque_states_shown"
   ],
   "note": ""
  },
  {
   "property": "C12",
   "status": "partial",
   "theorems": [
    "C12_exact",
    "C12_last_of_burst",
    "C12_freshest_partial",
    "C12_freshest_refuted"
   ],
   "note": "False in general: refuted for a reordered pair waiting together; proved when complete states arrive in the order of their ids. C12_exact and C12_last_of_burst describe exactly which state is received for any datagrams in any order."
  },
  {
   "property": "C13",
   "status": "proved",
   "theorems": [
    "C13_timeout_iff_silence",
    "C13_no_lost_wakeup"
   ],
   "note": ""
  },
  {
   "property": "C14",
   "status": "proved",
   "theorems": [
    "C14_command_echoes_newest",
    "C14_ids_increase"
   ],
   "note": ""
  },
  {
   "property": "C15",
   "status": "proved",
   "theorems": [
    "C15_admission",
    "C15_refused_when_idle",
    "C15_torques"
   ],
   "note": ""
  },
  {
   "property": "C16",
   "status": "proved",
   "theorems": [
    "C16_one_command_per_state",
    "C16_state_before_command"
   ],
   "note": ""
  },
  {
   "property": "C17",
   "status": "proved",
   "theorems": [
    "C17_finished_flag",
    "C17_fresh_values",
    "C17_until_stopped"
   ],
   "note": ""
  },
  {
   "property": "C18",
   "status": "proved",
   "theorems": [
    "C18_one_call",
    "C18_time_step",
    "C18_steps_add_up",
    "C18_step_never_fails"
   ],
   "note": ""
  },
  {
   "property": "C19",
   "status": "proved",
   "theorems": [
    "C19_motion_then_torque",
    "C19_none_after_completion",
    "C19_both_called"
   ],
   "note": ""
  },
  {
   "property": "C20",
   "status": "proved",
   "theorems": [
    "C20_stop_before_error",
    "C20_requests_of_control"
   ],
   "note": "If the robot rejects the stop request itself, the call panics instead of returning."
  },
  {
   "property": "C21",
   "status": "proved",
   "theorems": [
    "C21_enforce",
    "C21_enforce_priority",
    "C21_ignore"
   ],
   "note": ""
  },
  {
   "property": "C22",
   "status": "proved",
   "theorems": [
    "C22_start_sends_one_request",
    "C22_start_confirmed",
    "C22_control_start"
   ],
   "note": ""
  },
  {
   "property": "C23",
   "status": "proved",
   "theorems": [
    "C23_after_success",
    "C23_after_loop_error"
   ],
   "note": "The claim covers success and errors of the running loop; C23_rejected_start shows that a rejected start is outside of it."
  },
  {
   "property": "C24",
   "status": "proved",
   "theorems": [
    "C24_setter",
    "C24_stop",
    "C24_recovery",
    "C24_wall",
    "C24_move",
    "C24_start",
    "C24_loop_stop",
    "C24_cancel",
    "C24_motion_error",
    "C24_finish"
   ],
   "note": ""
  },
  {
   "property": "C25",
   "status": "proved",
   "theorems": [
    "C25_actions",
    "C25_status",
    "C25_history"
   ],
   "note": ""
  },
  {
   "property": "C26",
   "status": "proved",
   "theorems": [
    "C26_gripper",
    "C26_version",
    "C26_handle"
   ],
   "note": ""
  },
  {
   "property": "C27",
   "status": "proved",
   "theorems": [
    "C27_commands",
    "C27_torque_rate"
   ],
   "note": "In binary64, for last torques up to 2^32 Nm in magnitude; C27_commands: the same of every torque command of a running motion with the limiter on."
  },
  {
   "property": "C28",
   "status": "proved",
   "theorems": [
    "C28_commands",
    "C28_joint_velocity",
    "C28_joint_velocity_float"
   ],
   "note": "Exact arithmetic and binary64 (C28_joint_velocity_float: any sequence, arbitrary reported accelerations, NaN included); C28_commands: every velocity command of a running motion with the limiter on."
  },
  {
   "property": "C29",
   "status": "partial",
   "theorems": [
    "C29_jerk_partial",
    "C29_jerk_refuted",
    "C29_position_jerk"
   ],
   "note": "In exact arithmetic from constant velocity (velocity and position commands). C29_jerk_refuted: from an in-range velocity with an in-range reported acceleration the jerk limit can be broken for every request."
  },
  {
   "property": "C30",
   "status": "proved",
   "theorems": [
    "C30_commands",
    "C30_joint_position",
    "C30_joint_position_float"
   ],
   "note": "Exact arithmetic for sequences; binary64 for one cycle against the reported state (C30_joint_position_float) and for every position command of a running motion (C30_commands), reported angles up to 1024 rad; also bounds the acceleration."
  },
  {
   "property": "C31",
   "status": "partial",
   "theorems": [
    "C31_cartesian_velocity",
    "C31_range_refuted",
    "C31_doubles",
    "C31_commands",
    "C31_rest_refuted"
   ],
   "note": "Sequences in exact arithmetic from a start within the limits of the library (1 mm/s below the robot's). In binary64 one step (C31_doubles) and every twist command of a running motion (C31_commands) if the reported speed is a billionth below the library's limit. Sequences in binary64 are refuted: C31_range_refuted, and from rest C31_rest_refuted (the root of a negative number is NaN and ignored)."
  },
  {
   "property": "C32",
   "status": "partial",
   "theorems": [
    "C32_torques",
    "C32_joint_velocities_partial",
    "C32_joint_positions_partial",
    "C32_joint_velocities_refuted",
    "C32_cartesian_velocities_partial",
    "C32_poses_partial"
   ],
   "note": "Torques: exact. Joints, twists and poses: for requests whose acceleration is at most J/A times the distance to the velocity limit (twists: and not negligible). C32_joint_velocities_refuted: otherwise a request within all limits is altered. Poses: with the logarithm of rotations idealised (PoseReal.v)."
  },
  {
   "property": "C33",
   "status": "partial",
   "theorems": [
    "C33_between",
    "C33_first_order",
    "C33_monotone",
    "C33_converges",
    "C33_between_float_partial",
    "C33_refuses",
    "C33_zero_cutoff_refuted",
    "C33_equal_refuted",
    "C33_only_below_maximum",
    "C33_first_order_float",
    "C33_commands",
    "C33_torques",
    "C33_pose_rotation"
   ],
   "note": "Exact arithmetic: all of it, for poses also the rotation (C33_pose_rotation, conversions of rotations idealised). binary64, values up to 1024 and cutoff from 2^-900 to 1000 Hz: between up to 2^-40, the first-order formula up to 1e-10 (C33_first_order_float), and the same for every motion value and torque sent with the limiter off (C33_commands, C33_torques). C33_equal_refuted: rounding moves a constant; C33_zero_cutoff_refuted: +0 is accepted."
  },
  {
   "property": "C34",
   "status": "proved",
   "theorems": [
    "C34_only_finite_numbers"
   ],
   "note": "For every trace of library calls with arbitrary callback outputs; binary64 bit patterns."
  },
  {
   "property": "C35",
   "status": "proved",
   "theorems": [
    "C35_elbow_valid",
    "C35_elbow_follows_output"
   ],
   "note": ""
  },
  {
   "property": "C36",
   "status": "partial",
   "theorems": [
    "C36_accepted",
    "C36_rigid_accepted",
    "C36_reflection_refuted",
    "C36_orthogonal_refuted",
    "C36_binary64",
    "C36_commands",
    "C36_commands_refuted"
   ],
   "note": "Exact characterisation of accepted matrices (real, and binary64 up to 1e-12), rigid ones are accepted, all poses sent have the last row and unit rows/columns. Not orthogonality or orientation: refuted, also by a run that sends a reflection."
  },
  {
   "property": "C37",
   "status": "partial",
   "theorems": [
    "C37_log_partial",
    "C37_every_handle",
    "C37_only_old",
    "C37_first_motion",
    "C37_order_refuted",
    "C37_stale_refuted"
   ],
   "note": "The log is described exactly for every handle and every history (C37_every_handle): length, pairing and membership are as promised, order and freshness are not. They hold for the first motion with n <= size or size | n (C37_first_motion); C37_order_refuted and C37_stale_refuted give runs in which the log is rotated and in which it holds records of an earlier motion, and C37_only_old shows that after motions which left n pairs it holds nothing else."
  },
  {
   "property": "C38",
   "status": "partial",
   "theorems": [
    "C38_no_panic_partial",
    "C38_reflex_lost",
    "C38_from_log",
    "C38_statistics",
    "C38_panic_refuted",
    "C38_size_zero_refuted"
   ],
   "note": "For every handle and every history the exception is returned unless n > size and n = 1 mod size (C38_no_panic_partial); in that case a reflex always panics (C38_reflex_lost). C38_from_log gives the values reported. C38_panic_refuted and C38_size_zero_refuted give runs which panic."
  },
  {
   "property": "C39",
   "status": "partial",
   "theorems": [
    "C39_exact",
    "C39_every_flag",
    "C39_contains",
    "C39_text_partial",
    "C39_text_refuted"
   ],
   "note": "Flags, order and single occurrence exact; the text is exact for every non-empty set. C39_text_refuted: the empty set prints an unclosed bracket."
  },
  {
   "property": "C40",
   "status": "proved",
   "theorems": [
    "C40_composed",
    "C40_parallel_axes",
    "C40_one_part",
    "C40_nothing"
   ],
   "note": "Over exact real arithmetic: total mass, centre and inertia are those of the union of two arbitrary systems of mass points."
  },
  {
   "property": "C41",
   "status": "partial",
   "theorems": [
    "C41_sampled",
    "C41_start",
    "C41_continuous",
    "C41_end",
    "C41_jump_refuted",
    "C41_first_period_refuted",
    "C41_zero_speed_refuted"
   ],
   "note": "Exact arithmetic. Start, continuity and end for every positive speed factor and call sequence whose first period is 0, up to the code's tolerance of 1e-6. Refuted: a joint with exactly 1e-6 to go jumps, a first period other than 0 commands zeros, speed factor 0 commands the goal at once."
  },
  {
   "property": "C42",
   "status": "proved",
   "theorems": [
    "C42_limits",
    "C42_commands"
   ],
   "note": "Exact arithmetic; includes the bounds between consecutive commands for every sequence of periods."
  },
  {
   "property": "C43",
   "status": "partial",
   "theorems": [
    "C43_together",
    "C43_least_partial",
    "C43_least_refuted"
   ],
   "note": "Together: proved. Least: among motions with this velocity shape; refuted for arbitrary motions under the same limits."
  },
  {
   "property": "C44",
   "status": "proved",
   "theorems": [
    "C44_loading",
    "C44_frames",
    "C44_dynamics",
    "C44_states",
    "C44_stiffness"
   ],
   "note": "The shared library is a table of arbitrary routines. C44_stiffness in exact arithmetic."
  },
  {
   "property": "C45",
   "status": "partial",
   "theorems": [
    "C45_refuted",
    "C45_partial"
   ],
   "note": "Refuted: the inertia of the load is passed instead of the total. C45_partial: the other inputs are right, and the inertia if it equals the total."
  },
  {
   "property": "C46",
   "status": "partial",
   "theorems": [
    "C46_persistent",
    "C46_inverted",
    "C46_existing",
    "C46_stuck",
    "C46_failed",
    "C46_refuted",
    "C46_short_write_refuted"
   ],
   "note": "Persistent loads are right. Non-persistent ones do the opposite (C46_inverted, C46_refuted); a short write or an unusable file blocks all later loads (C46_stuck, C46_short_write_refuted)."
  },
  {
   "property": "C47",
   "status": "proved",
   "theorems": [
    "C47_defaults"
   ],
   "note": ""
  },
  {
   "property": "C48",
   "status": "proved",
   "theorems": [
    "C48_read_once_fresh",
    "C48_read_once_one_state",
    "C48_read_loop"
   ],
   "note": ""
  },
  {
   "property": "C49",
   "status": "partial",
   "theorems": [
    "C49_download_exact_partial",
    "C49_download_refuted"
   ],
   "note": "Exactness of what is returned is proved; delivery of messages over 70012 bytes arriving at once is refuted."
  },
  {
   "property": "C50",
   "status": "proved",
   "theorems": [
    "C50_gripper_handle",
    "C50_gripper_read_fresh",
    "C50_gripper_read_one_state",
    "C50_gripper_read_no_panic"
   ],
   "note": "The read object is one state under the same full-size condition as C09 (C50_gripper_read_one_state)."
  },
  {
   "property": "C51",
   "status": "proved",
   "theorems": [
    "C51_unused_fields_zero"
   ],
   "note": ""
  },
  {
   "property": "C52",
   "status": "proved",
   "theorems": [
    "C52_commands_encodable"
   ],
   "note": ""
  },
  {
   "property": "C53",
   "status": "proved",
   "theorems": [
    "C53_sent_verbatim",
    "C53_torques_verbatim"
   ],
   "note": "For commands before the callback finishes the motion."
  },
  {
   "property": "C54",
   "status": "proved",
   "theorems": [
    "C54_pose_translation",
    "C54_doubles",
    "C54_commands",
    "C54_pose_rotation"
   ],
   "note": "Exact arithmetic. Translation: rotation functions arbitrary. Rotation: for any logarithm; the conversions between matrices and quaternions are idealised as exact. In binary64: positions of every pose command of a running motion (C54_commands) if the reported speed is a billionth below the limit of the library; rotations are not covered there. With the conversion as nalgebra does it the rotation claim fails for half turns: C72_limiter_refuted."
  },
  {
   "property": "C55",
   "status": "proved",
   "theorems": [
    "C55_fields"
   ],
   "note": ""
  },
  {
   "property": "C56",
   "status": "proved",
   "theorems": [
    "C56_threaded",
    "C56_callback_panic",
    "C56_function_of_states"
   ],
   "note": "Calls of read's callback are not covered (C48 has them)."
  },
  {
   "property": "C57",
   "status": "proved",
   "theorems": [
    "C57_until_finished",
    "C57_no_motion",
    "C57_no_motion_once",
    "C57_request",
    "C57_moving_refuted"
   ],
   "note": "As claimed for an arm reported at rest (zeros of either sign); C57_until_finished: only the torque callback ends such a motion. While the robot reports desired velocities, other velocities are sent: C57_moving_refuted."
  },
  {
   "property": "C58",
   "status": "proved",
   "theorems": [
    "C58_samples",
    "C58_ends",
    "C58_request",
    "C58_seconds"
   ],
   "note": "binary64 throughout; what the samples mean in exact arithmetic is C41-C43. C58_seconds: the time steps given to the generator are the seconds up to a relative error of 2^-51."
  },
  {
   "property": "C59",
   "status": "proved",
   "theorems": [
    "C59_callbacks",
    "C59_commands"
   ],
   "note": "As claimed."
  },
  {
   "property": "C60",
   "status": "proved",
   "theorems": [
    "C60_refines",
    "C60_robot_wait",
    "C60_robot_check"
   ],
   "note": "Byte-level runs (TcpModel) simulate the message-level functions used by RobotModel and GripperModel, for every schedule; a check call that blocks inside read_exact (C04) has no completed poll and stays in that state."
  },
  {
   "property": "C61",
   "status": "proved",
   "theorems": [
    "C61_control",
    "C61_session",
    "C61_connect"
   ],
   "note": "Total correctness of the happy path in the message-level model. Any number of datagrams may arrive before and during each receive (of the right size); of each burst the last datagram counts, as C09 and C13 say."
  },
  {
   "property": "C62",
   "status": "proved",
   "theorems": [
    "C62_elbow_commands"
   ],
   "note": "binary64; for running motions with the limiter on and reported angles up to 1024 rad."
  },
  {
   "property": "C63",
   "status": "proved",
   "theorems": [
    "C63_request"
   ],
   "note": "As claimed; the numbers of the deviations are exact up to 1e-14 (2 pi)."
  },
  {
   "property": "C64",
   "status": "proved",
   "theorems": [
    "C64_move_response",
    "C64_stop_response",
    "C64_setter_response",
    "C64_recovery_response",
    "C64_library_response",
    "C64_connect_response",
    "C64_wall_response",
    "C64_gripper_response",
    "C64_gripper_connect_response",
    "C64_wall_returned"
   ],
   "note": "bincode accepts bytes after the value; the theorems cover replies of any length."
  },
  {
   "property": "C65",
   "status": "proved",
   "theorems": [
    "C65_accepted",
    "C65_torques_accepted",
    "C65_not_finite_refused",
    "C65_elbow_refused",
    "C65_control",
    "C65_given"
   ],
   "note": "binary64. Numbers up to 1024 in absolute value, reported velocities within the limits, cutoff from 2^-900 Hz; for poses with filter and limiter off (they use rotation functions of nalgebra)."
  },
  {
   "property": "C66",
   "status": "proved",
   "theorems": [
    "C66_constants"
   ],
   "note": "All 37 constants, as binary64 numbers."
  },
  {
   "property": "C67",
   "status": "proved",
   "theorems": [
    "C67_generator",
    "C67_speed",
    "C67_acceleration",
    "C67_ends",
    "C67_joint_motion"
   ],
   "note": "binary64. Speed factors from 1/1024 to 1, joint angles up to 4 rad; robot that answers and sends states with moderate numbers (C65, C61)."
  },
  {
   "property": "C68",
   "status": "proved",
   "theorems": [
    "C68_session",
    "C68_connect"
   ],
   "note": "Total correctness of the happy path in the message-level model, with the arrivals of C61."
  },
  {
   "property": "C69",
   "status": "proved",
   "theorems": [
    "C69_statistics",
    "C69_no_panic",
    "C69_succeeds",
    "C69_echo"
   ],
   "note": "Printing and sleeping in the closure are left out. The average is shown to lie in [0,1] and to be exactly 1 for perfect rates; no error bound for other averages."
  },
  {
   "property": "C70",
   "status": "proved",
   "theorems": [
    "C70_pose_commands",
    "C70_joint_position_commands",
    "C70_joint_velocity_commands",
    "C70_elbow_commands",
    "C70_joint_positions",
    "C70_joint_position_limits",
    "C70_joint_position_returns",
    "C70_joint_velocities",
    "C70_joint_velocity_limits",
    "C70_joint_velocity_returns",
    "C70_elbow",
    "C70_elbow_limits",
    "C70_elbow_returns",
    "C70_pose",
    "C70_pose_circle",
    "C70_pose_speed",
    "C70_pose_returns",
    "C70_twist",
    "C70_twist_speed",
    "C70_twist_returns",
    "C70_twist_commands"
   ],
   "note": "Exact arithmetic; cos, sin, powf, fmod and floor are the mathematical functions. Printing is left out. The theorems about commands assume that the robot reports what it was told. The twists and poses sent are those of the filtered curve up to 10^-12 (cutoff at least 1 mHz): the limiter takes a jerk or acceleration up to 2^-52 for none. For poses the conversions of rotations are idealised (PoseReal.v)."
  },
  {
   "property": "C71",
   "status": "proved",
   "theorems": [
    "C71_nearest_velocity",
    "C71_unaltered",
    "C71_monotone",
    "C71_nearest_position",
    "C71_closed_loop",
    "C71_nearest_torques"
   ],
   "note": "Exact arithmetic."
  },
  {
   "property": "C72",
   "status": "partial",
   "theorems": [
    "C72_unit",
    "C72_quaternion",
    "C72_orientation_partial",
    "C72_cycle_refuted",
    "C72_half_turn",
    "C72_orientation_refuted",
    "C72_limiter_half_turn",
    "C72_limiter_refuted",
    "C72_filter_half_turn",
    "C72_limiter_binary64_refuted"
   ],
   "note": "Exact arithmetic: every array gives a unit quaternion (C72_unit); the quaternion of every rotation matrix is right; orientations up to 1.8 rad are taken over up to 2^-51 rad (C72_orientation_partial). Beyond that it is false in general: for an angle below 1.82 rad the iteration never ends and twice the rotation is returned (C72_cycle_refuted), half turns are lost (C72_orientation_refuted, C72_limiter_refuted, also in binary64, C72_filter_half_turn). Not characterised: which other angles above 1.8 rad are taken over. nalgebra's two conversions are modelled from its published source."
  },
  {
   "property": "C73",
   "status": "proved",
   "theorems": [
    "C73_wrench",
    "C73_half_angle",
    "C73_equilibrium",
    "C73_passive",
    "C73_mirror",
    "C73_nullspace",
    "C73_homewards",
    "C73_channel",
    "C73_lag",
    "C73_impedance",
    "C73_mirror_torques",
    "C73_apart"
   ],
   "note": "Exact arithmetic; the pose of an array is what array_to_isometry makes of it (C72). The power balance of C73_passive holds where the two orientations are not half a turn apart. C73_nullspace and C73_homewards take two of Penrose's equations of the pseudo-inverse as hypothesis; nalgebra's pseudo-inverse fulfils them if no singular value lies between 0 and 0.001. The channel delivers in order; whether a message comes within 100 microseconds is left open."
  },
  {
   "property": "C74",
   "status": "proved",
   "theorems": [
    "C74_grasp_object",
    "C74_width",
    "C74_not_a_number",
    "C74_grasp_live",
    "C74_consecutive",
    "C74_start_position",
    "C74_consecutive_live"
   ],
   "note": "The whole of the two programs, with the command line's arguments as parameters and printing and the pauses left out. The gripper's state packets are assumed to be complete datagrams of 23 bytes or more in C74_grasp_object. cos, floor, powf and the remainder of the velocity closure are parameters."
  },
  {
   "property": "C75",
   "status": "proved",
   "theorems": [
    "C75_load",
    "C75_refines",
    "C75_download",
    "C75_same_directory",
    "C75_spoilt",
    "C75_print",
    "C75_alternates",
    "C75_load_live",
    "C75_download_live",
    "C75_print_live"
   ],
   "note": "The linker, the routines of the library and the file system's answers are parameters; nobody else changes /tmp/model.so during a call. A copy of a file onto itself is modelled as std::fs::copy describes it: the target is truncated first. Printing is left out."
  },
  {
   "property": "C76",
   "status": "proved",
   "theorems": [
    "C76_ends",
    "C76_succeeds",
    "C76_every_ms",
    "C76_program",
    "C76_live"
   ],
   "note": "All of the five programs, with the key press and printing left out. The mathematical functions are parameters; C76_ends and C76_succeeds (position, velocity and twist programs) assume of them what `usual_functions` lists. For the pose and elbow programs success is shown given that the control call accepts the commands (C76_live)."
  },
  {
   "property": "C77",
   "status": "proved",
   "theorems": [
    "C77_communication",
    "C77_communication_live",
    "C77_echo",
    "C77_echo_live"
   ],
   "note": "Both programs, with the key press and printing left out. The closure's variables, which communication_test prints after the control call, are recomputed from the calls of the callback in the trace (`measure`)."
  },
  {
   "property": "C78",
   "status": "proved",
   "theorems": [
    "C78_impedance",
    "C78_live"
   ],
   "note": "The binary64 arithmetic of the spring (nalgebra) is a parameter `law`: the theorem says with which inputs it is called and what becomes of its result; the formula in exact arithmetic is C73."
  },
  {
   "property": "C79",
   "status": "proved",
   "theorems": [
    "C79_mirror"
   ],
   "note": "The binary64 arithmetic of the torques (nalgebra) is a parameter `law`, as in C78. Which poses are there in time is a parameter too; the channel itself is proved to deliver them in order, at most one in each call."
  },
  {
   "property": "C80",
   "status": "proved",
   "theorems": [
    "C80_joint_motion_commands",
    "C80_short_refuted"
   ],
   "note": "Exact arithmetic, a state every millisecond, a robot which reports what it was told, no joint with exactly 1e-6 rad to go. C80_short_refuted: without the condition on the distances it is false; at full speed a motion of 7.5 microradians of the second joint is altered by the limiter."
  },
  {
   "property": "C81",
   "status": "proved",
   "theorems": [
    "C81_message",
    "C81_one_line",
    "C81_plain",
    "C81_answers",
    "C81_reason",
    "C81_stop_reason_refuted",
    "C81_gripper",
    "C81_versions",
    "C81_kind_refuted"
   ],
   "note": "Strings are UTF-8 bytes; characters outside ASCII are taken for printable by Rust's Debug format. C81_kind_refuted: the text does not tell the kind of exception. C81_stop_reason_refuted: the public stop has the same text for an aborted stop and one that is not possible."
  }
 ]
}