-Q theories Verif
theories/PyBase.v
theories/PyBase_proofs.v
theories/Packets.v
theories/IO.v
theories/Crypto.v
theories/Time.v
theories/EncChannel.v
theories/AppChannel.v
theories/Session.v
theories/Channel.v
theories/SaltLib.v
theories/SaltRand.v
theories/Dev.v
theories/Spec.v
theories/Packets_proofs.v
theories/A1A2_proofs.v
theories/Packets_proofs2.v
theories/PacketOps.v
theories/PacketOps_proofs.v
theories/Props_Packets.v
theories/Channel_proofs.v
theories/Props_Channel.v
theories/Crypto_proofs.v
theories/EncUse.v
theories/EncChannel_proofs.v
theories/Props_Enc.v
theories/IO_proofs.v
theories/AppUse.v
theories/AppChannel_proofs.v
theories/Props_App.v
theories/SessUse.v
theories/Session_proofs.v
theories/Session_steps.v
theories/Sched_proofs.v
theories/Session_fwd.v
theories/Session_sched.v
theories/Props_Session.v
theories/Props_Claim.v
theories/Props_Session2.v
theories/Props_Session3.v
theories/Props_Misc.v
theories/Props_Alone.v
theories/Backends.v
theories/Props_Backends.v
theories/Props_Session4.v
theories/Stack.v
theories/StackUse.v
theories/Stack_proofs.v
theories/Stack_fit.v
theories/Props_Stack.v
theories/Pipe.v
theories/Pipe_proofs.v
theories/Props_Pipe.v
theories/Props_Buffer.v
theories/Props_Shared.v
theories/Props_Empty.v
theories/Props_Wanted.v
theories/PyInt.v
theories/PyInt_proofs.v
theories/ShaSpec.v
theories/TwHash.v
theories/TwHash_proofs.v
theories/SalsaSpec.v
theories/TwSalsa.v
theories/TwSalsa_proofs.v
theories/Radix_proofs.v
theories/PolySpec.v
theories/TwPoly.v
theories/TwPoly_proofs.v
theories/TwBox_proofs.v
theories/CurveSpec.v
theories/TwField.v
theories/TwPure.v
theories/Props_Pure.v
theories/Props_Pure2.v
theories/TwField_proofs.v
theories/TwPack_proofs.v
theories/TwCurve_proofs.v
theories/Fast25519.v
theories/Prime25519.v
theories/PrimeL.v
theories/FieldP.v
theories/Edwards.v
theories/Curve25519.v
theories/Props_Pure3.v
theories/Props_Pure4.v
theories/EdSpec.v
theories/TwSign.v
theories/EdPoint.v
theories/TwSign_proofs.v
theories/TwModL_proofs.v
theories/TwEd_proofs.v
theories/EdSig_proofs.v
theories/Props_Pure5.v
theories/Props_OneSig.v
theories/StdLib.v
theories/StdLib_proofs.v
theories/Props_Std.v
theories/Tasks.v
theories/Tasks_proofs.v
theories/Props_Tasks.v
theories/Cancel.v
theories/Props_Cancel.v
theories/Sync.v
theories/Props_Sync.v
theories/Loops.v
theories/Props_Loops.v
theories/Props_Sizes.v
theories/Props_E2E.v
theories/Props_Lost.v
theories/Props_Unsent.v
theories/Props_Errors.v
theories/Props_Std2.v
theories/Props_Replay.v
theories/Props_Ident.v
theories/Props_Pad.v
theories/Props_Clock.v
theories/Flags.v
theories/Flags_proofs.v
theories/Props_Flags.v
theories/Examples.v
theories/Props_Examples.v
theories/Fields.v
theories/Fields_proofs.v
theories/Props_Fields.v
theories/Attrs.v
theories/Props_Attrs.v
theories/Checked.v
theories/Checked_proofs.v
theories/Props_Checked.v
theories/Props_Postpone.v
theories/ChkPy.v
theories/ChkHash.v
theories/ChkSalsa.v
theories/ChkField.v
theories/ChkSign.v
theories/ChkHash_proofs.v
theories/ChkSalsa_proofs.v
theories/ChkField_proofs.v
theories/ChkSign_proofs.v
theories/ChkSig_proofs.v
theories/ChkBox_proofs.v
theories/Props_Pure6.v
theories/Props_Front.v
theories/Props_Examples2.v
theories/Props_Reuse.v
theories/Props_Checked2.v
theories/Servers.v
theories/Servers_proofs.v
theories/Props_Servers.v
theories/TwKeys.v
theories/Props_Pure7.v
theories/Stack_run.v
theories/Counts.v
theories/Counts_proofs.v
theories/Props_Counts.v
theories/Harness.v
theories/Harness_proofs.v
theories/Props_Harness.v
theories/Props_Fields2.v
theories/TunnelMP.v
theories/Props_Tunnel.v
theories/Threads.v
theories/Threads_proofs.v
theories/Props_Threads.v
theories/ReadThreads.v
theories/Props_ReadThreads.v
theories/EventLoop.v
theories/Props_EventLoop.v
theories/Props_Bounded.v
theories/Props_Until.v
theories/Props_Cut.v
theories/Duplex.v
theories/Props_Duplex.v
theories/Props_OneShake.v
