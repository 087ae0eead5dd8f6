-Q theories Verif
theories/Bytes.v
theories/Bus.v
theories/Registers.v
theories/Net.v
theories/Dotted.v
theories/Socket.v
theories/Cursor.v
theories/Tcp.v
theories/Udp.v
theories/Host.v
theories/Device.v
theories/RawDevice.v
theories/Uninit.v
theories/Spi.v
theories/Datasheet.v
theories/Exec.v
theories/Chip.v
theories/SpiChip.v
theories/History.v
theories/RawHistory.v
theories/BytesFacts.v
theories/ValueFacts.v
theories/ProgFacts.v
theories/ApiFacts.v
theories/ErrorFacts.v
theories/HistoryFacts.v
theories/PoolFacts.v
theories/LeakFacts.v
theories/TwoDevices.v
theories/TwoDeviceFacts.v
theories/ExecFacts.v
theories/CallFacts.v
theories/RawExact.v
theories/SpiFacts.v
theories/RingFacts.v
theories/NetFacts.v
theories/ChipLogic.v
theories/SockSpecs.v
theories/OpenFacts.v
theories/TxFacts.v
theories/TcpConnect.v
theories/RxFacts.v
theories/TcpSend.v
theories/PacketSend.v
theories/UdpSend.v
theories/TcpReceive.v
theories/UdpReceive.v
theories/RawFrames.v
theories/FrameFacts.v
theories/ReadFacts.v
theories/TcpSession.v
theories/UdpSession.v
theories/UdpCalls.v
theories/ComFacts.v
theories/InitFacts.v
theories/RawSession.v
theories/RawCalls.v
theories/Progress.v
theories/TcpLimits.v
theories/ThreeWireFacts.v
theories/AccessFacts.v
theories/Liveness.v
theories/Recovery.v
theories/RecoverySend.v
theories/RecoveryRaw.v
theories/Cases.v
theories/Pipe.v
theories/PipeCalls.v
theories/PipeSend.v
theories/PipeSession.v
theories/Properties_values.v
theories/Properties_pool.v
theories/Properties_calls.v
theories/Properties_spi.v
theories/Properties_tcp.v
theories/Properties_stream.v
theories/Properties_udp.v
theories/Properties_chip.v
theories/Properties_raw.v
theories/Properties_access.v
theories/Properties_live.v
theories/Properties_recovery.v
theories/Properties_pipe.v
theories/SizeFacts.v
theories/System.v
theories/Deaf.v
theories/UdpWire.v
theories/RawStays.v
theories/Traffic.v
theories/Properties_traffic.v
theories/Properties_system.v
theories/Life.v
theories/LifeFacts.v
theories/LifeWire.v
theories/Properties_life.v
theories/Commands.v
theories/Dial.v
theories/Properties_commands.v
theories/Causes.v
theories/Properties_errors.v
theories/SockRegs.v
theories/Properties_sockregs.v
theories/Remembered.v
theories/Properties_remembered.v
theories/Properties_errwire.v
theories/Verdicts.v
theories/Properties_verdicts.v
theories/Properties_rawsock.v
theories/Origin.v
theories/Properties_endtoend.v
theories/Handshake.v
theories/Properties_handshake.v
theories/LifePanic.v
theories/LifeAccess.v
theories/LifeCalls.v
theories/Goodbye.v
theories/LifeHandshake.v
theories/LifeRegs.v
theories/Properties_whole.v
theories/Slow.v
theories/SlowFacts.v
theories/SlowSend.v
theories/Properties_slow.v
theories/Properties_close.v
theories/Pin.v
theories/PinFacts.v
theories/Ends.v
theories/Properties_ends.v
theories/Properties_pin.v
theories/Literal.v
theories/Properties_literal.v
theories/Refusals.v
theories/Properties_refusals.v
theories/Ports.v
theories/Properties_ports.v
theories/Stays.v
theories/Properties_stays.v
theories/Properties_stayslife.v
theories/FirstSend.v
theories/Properties_readme.v
theories/Properties_nets.v
theories/Properties_defaults.v
theories/Timely.v
theories/Properties_timely.v
theories/Properties_reply.v
theories/Phy.v
theories/Properties_phy.v
theories/Properties_listen.v
theories/Properties_echo.v
theories/Wire.v
theories/Properties_spierr.v
theories/WireRefine.v
theories/WireBlocks.v
theories/Properties_wires.v
theories/Properties_repeater.v
theories/Properties_relay.v
theories/Properties_server.v
theories/Asleep.v
theories/Transcript.v
theories/Properties_transcript.v
theories/Answers.v
theories/Properties_answers.v
theories/Properties_fixed.v
theories/Nays.v
theories/Properties_nays.v
theories/Fuel.v
theories/Properties_fuel.v
theories/Waits.v
theories/Properties_waits.v
theories/Adaptive.v
theories/Properties_adaptive.v
theories/Properties_asleep.v
