-Q theories Verif

theories/Bytes.v
theories/Codec.v
theories/WireModel.v
theories/WireSpec.v
theories/WireProofs.v
theories/WireProofs2.v
theories/WireProofs3.v
theories/Properties_Wire.v
theories/TcpModel.v
theories/TcpSpec.v
theories/TcpProofs.v
theories/TcpLive.v
theories/TcpMore.v
theories/Properties_Tcp.v
theories/UdpModel.v
theories/UdpSpec.v
theories/UdpProofs.v
theories/Properties_Udp.v
theories/ErrorsModel.v
theories/LoggerModel.v
theories/RobotModel.v
theories/LoopModel.v
theories/RobotSpec.v
theories/RobotProofs.v
theories/RobotWp.v
theories/LoopProofs.v
theories/Decoded.v
theories/Effects.v
theories/RobotMore.v
theories/RobotCalls.v
theories/RobotScenario.v
theories/Properties_Robot.v
theories/Properties_Freshest.v
theories/StatusSpec.v
theories/StatusProofs.v
theories/LoggerProofs.v
theories/LogSpec.v
theories/LogProofs.v
theories/Properties_Status.v
theories/Properties_Response.v
theories/GripperModel.v
theories/GripperProofs.v
theories/Properties_Gripper.v
theories/Properties_Errors.v
theories/Properties_Log.v
theories/NumOps.v
theories/RateModel.v
theories/NumReal.v
theories/RateReal.v
theories/RateCart.v
theories/NumFloat.v
theories/FloatFacts.v
theories/SizeFacts.v
theories/RateSpec.v
theories/Properties_Rate.v
theories/Properties_Rate64.v
theories/ConvertModel.v
theories/PoseReal.v
theories/TypedModel.v
theories/Outputs.v
theories/TypedSpec.v
theories/ConvertFacts.v
theories/TypedProofs.v
theories/Properties_Convert.v
theories/Properties_Commands.v
theories/Properties_Filter.v
theories/PiBounds.v
theories/Properties_Smooth.v
theories/Properties_Pose.v
theories/Properties_Rotation.v
theories/AcceptProofs.v
theories/StateModel.v
theories/Properties_State.v
theories/MotionModel.v
theories/MotionProofs.v
theories/Properties_Motion.v
theories/Properties_Motion64.v
theories/ModelApi.v
theories/Properties_Model.v
theories/JointMotionModel.v
theories/NoBlame.v
theories/ReplaySpec.v
theories/ReplayProofs.v
theories/Properties_Replay.v
theories/Properties_Options.v
theories/Properties_Time.v
theories/Properties_Fresh.v
theories/Tests_Repo.v
theories/Properties_Refine.v
theories/LiveUdp.v
theories/LiveSpec.v
theories/LiveProofs.v
theories/Properties_Live.v
theories/Properties_Accept.v
theories/TwistFloats.v
theories/TwistProofs.v
theories/Properties_Twist.v
theories/Properties_Turn.v
theories/Properties_PoseCommands.v
theories/Properties_Limits.v
theories/MotionFloats.v
theories/MotionPlan.v
theories/MotionValues.v
theories/MotionProfile.v
theories/MotionTune.v
theories/MotionClose.v
theories/MotionRun.v
theories/Properties_JointMotion.v
theories/Properties_GripperLive.v
theories/CallFacts.v
theories/ExampleModel.v
theories/Properties_Examples.v
theories/ExampleMotions.v
theories/Waves.v
theories/Properties_ExampleMotions.v
theories/Properties_ExampleCommands.v
theories/Properties_TwistCommands.v
theories/JerkShape.v
theories/Properties_JointCommands.v
theories/PoseArc.v
theories/Properties_CircleCommands.v
theories/Properties_Nearest.v
theories/IsometryModel.v
theories/IsometryReal.v
theories/IsometryPose.v
theories/Properties_Isometry.v
theories/ImpedanceModel.v
theories/Properties_Impedance.v
theories/ProgramModel.v
theories/Properties_Programs.v
theories/LibraryModel.v
theories/Properties_Library.v
theories/MotionPrograms.v
theories/ClockFacts.v
theories/Properties_MotionPrograms.v
theories/Properties_MotionEnds.v
theories/CommPrograms.v
theories/Properties_CommPrograms.v
theories/ImpedanceProgram.v
theories/Properties_ImpedanceProgram.v
theories/TorqueCalls.v
theories/MirrorProgram.v
theories/Properties_MirrorProgram.v
theories/ExceptionModel.v
theories/Properties_Exception.v
