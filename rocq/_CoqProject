-Q theories Verif
theories/Base.v
theories/Utf8.v
theories/Codec.v
theories/Tac.v
theories/SpecCodec.v
theories/CodecFacts.v
theories/Property.v
theories/SpecProperty.v
theories/PropertyFacts.v
theories/PacketProps.v
theories/PacketPropsFacts.v
theories/Packets.v
theories/SpecPackets.v
theories/PacketsFacts.v
theories/PacketsRoundtrip.v
theories/ParseFacts.v
theories/PacketsDefects.v
theories/Frame.v
theories/FrameFacts.v
theories/SpecWire.v
theories/WireConform.v
theories/WireAccept.v
theories/WireDefects.v
theories/WireFacts.v
theories/Properties_Wire.v
theories/Maps.v
theories/Topic.v
theories/SpecTopic.v
theories/TopicFacts.v
theories/TopicTree.v
theories/TreeFacts.v
theories/Storage.v
theories/SpecStorage.v
theories/StorageFacts.v
theories/Broker.v
theories/SpecBroker.v
theories/BrokerFacts.v
theories/Str.v
theories/Properties_Routing.v
theories/Properties_Storage.v
theories/Auth.v
theories/Credentials.v
theories/Session.v
theories/Server.v
theories/SpecServer.v
theories/SessionFacts.v
theories/ServerFacts.v
theories/HandlerFacts.v
theories/HistoryFacts.v
theories/ProvenanceFacts.v
theories/WorldFacts.v
theories/DeliveryFacts.v
theories/StoreFacts.v
theories/ConnectFacts.v
theories/ResumeFacts.v
theories/WillFacts.v
theories/Client.v
theories/SpecClient.v
theories/ClientFacts.v
theories/Timer.v
theories/Locks.v
theories/LocksFacts.v
theories/Crash.v
theories/CrashFacts.v
theories/Passwd.v
theories/SpecPasswd.v
theories/PasswdFacts.v
theories/Examples.v
theories/Properties_Delivery.v
theories/Properties_Session.v
theories/Properties_Auth.v
theories/Properties_Server.v
theories/Properties_Will.v
theories/Properties_Crash.v
theories/Properties_Timer.v
theories/Properties_Locks.v
theories/Properties_Passwd.v
theories/Properties_Client.v
theories/Cli.v
theories/SpecCli.v
theories/CliFacts.v
theories/Properties_Cli.v
theories/Properties_EndToEnd.v
theories/Listener.v
theories/SpecListener.v
theories/ListenerFacts.v
theories/Properties_Listener.v
theories/Conc.v
theories/SpecConc.v
theories/ConcFacts.v
theories/ConcLocks.v
theories/ConcRoute.v
theories/ConcOwn.v
theories/ConcDeliver.v
theories/ConcWill.v
theories/Properties_Conc.v
theories/Properties_Races.v
theories/Properties_Format.v
theories/SpecOutput.v
theories/OutputFacts.v
theories/Properties_Output.v
theories/Properties_ClientWire.v
theories/Properties_KeepAlive.v
theories/Daemon.v
theories/SpecDaemon.v
theories/DaemonFacts.v
theories/Properties_Daemon.v
theories/BoundFacts.v
theories/Properties_Bounds.v
theories/ConcProv.v
theories/SpecDurable.v
theories/SpecLives.v
theories/ConcLives.v
theories/Properties_Provenance.v
theories/RefuseFacts.v
theories/Properties_Refuse.v
theories/Network.v
theories/SpecNetwork.v
theories/NetworkFacts.v
theories/Properties_Network.v
theories/Properties_Bytes.v
theories/ConcStore.v
theories/ConcHold.v
theories/ConcBack.v
theories/Properties_Durable.v
theories/ConcTestament.v
theories/ConcRenew.v
theories/Properties_Testament.v
theories/Properties_Lives.v
theories/Properties_Return.v
theories/ConcNet.v
theories/SpecConcNet.v
theories/ConcNetFacts.v
theories/Properties_ConcNet.v
theories/SpecConcOutput.v
theories/ConcOutput.v
theories/Properties_ConcOutput.v
theories/ConcWhole.v
theories/Properties_Whole.v
theories/ProfileFacts.v
theories/Properties_Profile.v
theories/SpecWishes.v
theories/WishesFacts.v
theories/Properties_Wishes.v
theories/SpecRoom.v
theories/RoomFacts.v
theories/Properties_Room.v
theories/ConcBound.v
theories/Properties_Flight.v
theories/SpecRefused.v
theories/ConcRefused.v
theories/Properties_Refused.v
theories/SpecSql.v
theories/ConcSql.v
theories/Properties_Sql.v
theories/SpecRetain.v
theories/ConcRetain.v
theories/Properties_Retain.v
theories/SpecUnsub.v
theories/ConcUnsub.v
theories/Properties_Unsub.v
theories/SpecUnread.v
theories/Properties_Unread.v
theories/SpecStuck.v
theories/Properties_Stuck.v
theories/SpecAcked.v
theories/ConcAcked.v
theories/Properties_Acked.v
theories/ConcAnew.v
theories/Properties_Anew.v
theories/ConcPresent.v
theories/ConcReturn.v
theories/Properties_Present.v
