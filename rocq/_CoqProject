-Q theories Verif
theories/Model/Arrival.v
theories/Model/Cache.v
theories/Model/Calendar.v
theories/Model/CallTime.v
theories/Model/Chunk.v
theories/Model/Connect.v
theories/Model/Converse.v
theories/Model/DebugMux.v
theories/Model/Details.v
theories/Model/Dial.v
theories/Model/ExampleCalls.v
theories/Model/ExampleCycle.v
theories/Model/Filter.v
theories/Model/FinalLog.v
theories/Model/FnLog.v
theories/Model/FnSpec.v
theories/Model/FnWire.v
theories/Model/Gateway.v
theories/Model/GoStrings.v
theories/Model/Gone.v
theories/Model/Handlers.v
theories/Model/Hangup.v
theories/Model/HttpStream.v
theories/Model/Invoke.v
theories/Model/InvokeLog.v
theories/Model/InvokeSystem.v
theories/Model/JsonBytes.v
theories/Model/JsonMsg.v
theories/Model/JsonNumber.v
theories/Model/JsonText.v
theories/Model/Logging.v
theories/Model/MatchWire.v
theories/Model/Matchmaker.v
theories/Model/MemRepl.v
theories/Model/Metrics.v
theories/Model/MetricsPage.v
theories/Model/Mmf.v
theories/Model/MockFrontend.v
theories/Model/MockRun.v
theories/Model/NetSettings.v
theories/Model/ParseBase0.v
theories/Model/Port.v
theories/Model/Proto.v
theories/Model/ProtoMsg.v
theories/Model/Queues.v
theories/Model/Race.v
theories/Model/RedisArrival.v
theories/Model/RedisReader.v
theories/Model/RedisRepl.v
theories/Model/RedisSystem.v
theories/Model/RedisVisible.v
theories/Model/Replica.v
theories/Model/Samples.v
theories/Model/Scrape.v
theories/Model/Series.v
theories/Model/Settings.v
theories/Model/Shutdown.v
theories/Model/Snapshot.v
theories/Model/Startup.v
theories/Model/StatusWire.v
theories/Model/System.v
theories/Model/Timing.v
theories/Model/Types.v
theories/Model/Visible.v
theories/Model/WaitGroup.v
theories/Model/Watch.v
theories/Model/WatchSystem.v
theories/Model/Wire.v
theories/Spec/AgreeSpec.v
theories/Spec/ArrivalSpec.v
theories/Spec/AssignSpec.v
theories/Spec/CacheSpec.v
theories/Spec/CalendarSpec.v
theories/Spec/CallTimeSpec.v
theories/Spec/ChunkSpec.v
theories/Spec/ConnectSpec.v
theories/Spec/ConverseSpec.v
theories/Spec/DebugSpec.v
theories/Spec/DetailsSpec.v
theories/Spec/DialSpec.v
theories/Spec/EndToEndSpec.v
theories/Spec/ExampleCallsSpec.v
theories/Spec/ExampleCycleSpec.v
theories/Spec/FairInvokeSpec.v
theories/Spec/FairSpec.v
theories/Spec/FairWatchSpec.v
theories/Spec/FilterSpec.v
theories/Spec/FnLogSpec.v
theories/Spec/FnWireSpec.v
theories/Spec/ForeignSpec.v
theories/Spec/ForgetSpec.v
theories/Spec/GoneSpec.v
theories/Spec/HandlerSpec.v
theories/Spec/HangupSpec.v
theories/Spec/HttpSpec.v
theories/Spec/IdSpec.v
theories/Spec/IdTimeSpec.v
theories/Spec/InEffectSpec.v
theories/Spec/InvokeLogSpec.v
theories/Spec/InvokeSpec.v
theories/Spec/InvokeSystemSpec.v
theories/Spec/JsonBytesSpec.v
theories/Spec/JsonSpec.v
theories/Spec/JsonTextSpec.v
theories/Spec/MatchWireSpec.v
theories/Spec/MatchmakerSpec.v
theories/Spec/MetricsSpec.v
theories/Spec/MiscSpec.v
theories/Spec/MmfSpec.v
theories/Spec/MockRunSpec.v
theories/Spec/MockSpec.v
theories/Spec/NamesSpec.v
theories/Spec/NetSpec.v
theories/Spec/NumberSpec.v
theories/Spec/PageSpec.v
theories/Spec/RaceSpec.v
theories/Spec/RedisArrivalSpec.v
theories/Spec/RedisSpec.v
theories/Spec/RedisVisibleSpec.v
theories/Spec/ReplySpec.v
theories/Spec/SampleSpec.v
theories/Spec/ScrapeSpec.v
theories/Spec/SeriesSpec.v
theories/Spec/SessionSpec.v
theories/Spec/SettingsSpec.v
theories/Spec/ShutdownSpec.v
theories/Spec/StartupSpec.v
theories/Spec/StateSpec.v
theories/Spec/StatusSpec.v
theories/Spec/StringSpec.v
theories/Spec/SystemSpec.v
theories/Spec/TimingSpec.v
theories/Spec/Utf8Spec.v
theories/Spec/VisibleSpec.v
theories/Spec/WaitGroupSpec.v
theories/Spec/WatchSpec.v
theories/Spec/WireGrammarSpec.v
theories/Spec/WireLikeSpec.v
theories/Proofs/AgreeLemmas.v
theories/Proofs/AlikeLemmas.v
theories/Proofs/ArrivalLemmas.v
theories/Proofs/AssignLemmas.v
theories/Proofs/AssignMem.v
theories/Proofs/AssignRedis.v
theories/Proofs/CacheLemmas.v
theories/Proofs/CacheWitness.v
theories/Proofs/CalendarDays.v
theories/Proofs/CalendarLemmas.v
theories/Proofs/CalendarStamp.v
theories/Proofs/CalendarText.v
theories/Proofs/CalendarWrite.v
theories/Proofs/CallTimeLemmas.v
theories/Proofs/ChunkLemmas.v
theories/Proofs/ChunkMore.v
theories/Proofs/ChunkWitness.v
theories/Proofs/ConnectLemmas.v
theories/Proofs/ConverseLemmas.v
theories/Proofs/DamageLemmas.v
theories/Proofs/DebugLemmas.v
theories/Proofs/DetailsLemmas.v
theories/Proofs/DialLemmas.v
theories/Proofs/DoubleBits.v
theories/Proofs/DoubleLemmas.v
theories/Proofs/DoubleRead.v
theories/Proofs/DoubleShort.v
theories/Proofs/DoubleWrite.v
theories/Proofs/DurationLemmas.v
theories/Proofs/EndToEndLemmas.v
theories/Proofs/EndToEndMem.v
theories/Proofs/EndToEndRedis.v
theories/Proofs/ExampleBroken.v
theories/Proofs/ExampleCallsLemmas.v
theories/Proofs/ExampleCycleLemmas.v
theories/Proofs/FairIdle.v
theories/Proofs/FairInvoke.v
theories/Proofs/FairInvokeMore.v
theories/Proofs/FairLemmas.v
theories/Proofs/FairMem.v
theories/Proofs/FairRedis.v
theories/Proofs/FairRedisMore.v
theories/Proofs/FairWatch.v
theories/Proofs/FairWatchMore.v
theories/Proofs/FilterLemmas.v
theories/Proofs/FinalLogLemmas.v
theories/Proofs/FloatLemmas.v
theories/Proofs/FnLogLemmas.v
theories/Proofs/FnSpecLemmas.v
theories/Proofs/FnWireLemmas.v
theories/Proofs/ForeignLemmas.v
theories/Proofs/ForgetLemmas.v
theories/Proofs/FrontLemmas.v
theories/Proofs/GoneLemmas.v
theories/Proofs/HandlerLemmas.v
theories/Proofs/HandlerMore.v
theories/Proofs/HangupLemmas.v
theories/Proofs/HistoryLemmas.v
theories/Proofs/HistoryMore.v
theories/Proofs/HttpLemmas.v
theories/Proofs/IdTimeLemmas.v
theories/Proofs/InEffectLemmas.v
theories/Proofs/InEffectRun.v
theories/Proofs/InstLemmas.v
theories/Proofs/InvokeLemmas.v
theories/Proofs/InvokeLogLemmas.v
theories/Proofs/InvokeMore.v
theories/Proofs/InvokeSystemLemmas.v
theories/Proofs/InvokeSystemMore.v
theories/Proofs/JsonBytesLemmas.v
theories/Proofs/JsonLemmas.v
theories/Proofs/JsonTextLemmas.v
theories/Proofs/JsonWitness.v
theories/Proofs/LiteralLemmas.v
theories/Proofs/LiteralMore.v
theories/Proofs/MatchWireLemmas.v
theories/Proofs/MatchWireMore.v
theories/Proofs/MatchmakerLemmas.v
theories/Proofs/MemLemmas.v
theories/Proofs/MemSystemLemmas.v
theories/Proofs/MemSystemLive.v
theories/Proofs/MemSystemMore.v
theories/Proofs/MemSystemOrder.v
theories/Proofs/MetricsLemmas.v
theories/Proofs/MiscLemmas.v
theories/Proofs/MmfLemmas.v
theories/Proofs/MockLemmas.v
theories/Proofs/MockRunEnd.v
theories/Proofs/MockRunFair.v
theories/Proofs/MockRunLemmas.v
theories/Proofs/MockRunLive.v
theories/Proofs/MockRunWitness.v
theories/Proofs/NamesLemmas.v
theories/Proofs/NetLemmas.v
theories/Proofs/NoStopLemmas.v
theories/Proofs/NoStopMore.v
theories/Proofs/NumberClaims.v
theories/Proofs/NumberInt.v
theories/Proofs/NumberRead.v
theories/Proofs/NumberScan.v
theories/Proofs/PageLemmas.v
theories/Proofs/PageMore.v
theories/Proofs/PageNumbers.v
theories/Proofs/PageText.v
theories/Proofs/ProtoLemmas.v
theories/Proofs/ProtoMsgLemmas.v
theories/Proofs/ProtoMsgMore.v
theories/Proofs/QuotedLemmas.v
theories/Proofs/RaceLemmas.v
theories/Proofs/RedisArrivalLemmas.v
theories/Proofs/RedisLemmas.v
theories/Proofs/RedisReadLemmas.v
theories/Proofs/RedisSendLemmas.v
theories/Proofs/RedisSystemLemmas.v
theories/Proofs/RedisSystemLive.v
theories/Proofs/RedisSystemMore.v
theories/Proofs/RedisSystemOrder.v
theories/Proofs/RedisSystemRead.v
theories/Proofs/RedisVisibleLemmas.v
theories/Proofs/RedisWitness.v
theories/Proofs/ReplyLemmas.v
theories/Proofs/ReturnLemmas.v
theories/Proofs/SampleLemmas.v
theories/Proofs/ScrapeLemmas.v
theories/Proofs/SeriesLemmas.v
theories/Proofs/SessionLemmas.v
theories/Proofs/SettingsLemmas.v
theories/Proofs/SettingsMore.v
theories/Proofs/ShutdownLemmas.v
theories/Proofs/SnapshotLemmas.v
theories/Proofs/StartupLemmas.v
theories/Proofs/StateLemmas.v
theories/Proofs/StateMem.v
theories/Proofs/StateRedis.v
theories/Proofs/StatusLemmas.v
theories/Proofs/StatusMessage.v
theories/Proofs/StringLemmas.v
theories/Proofs/TimingLemmas.v
theories/Proofs/Utf8Lemmas.v
theories/Proofs/Utf8TextLemmas.v
theories/Proofs/VisibleLemmas.v
theories/Proofs/WaitGroupLemmas.v
theories/Proofs/WatchLemmas.v
theories/Proofs/WireGrammarLemmas.v
theories/Proofs/WireLemmas.v
theories/Proofs/WireLikeLemmas.v
theories/Proofs/WireLikeMore.v
theories/Props/AgreeProps.v
theories/Props/AlikeProps.v
theories/Props/ArrivalProps.v
theories/Props/AssignProps.v
theories/Props/CacheProps.v
theories/Props/CalendarProps.v
theories/Props/CallTimeProps.v
theories/Props/ChunkProps.v
theories/Props/ConnectProps.v
theories/Props/ConverseProps.v
theories/Props/DamageProps.v
theories/Props/DebugProps.v
theories/Props/DetailsProps.v
theories/Props/DialProps.v
theories/Props/DoubleProps.v
theories/Props/EndToEndProps.v
theories/Props/ExampleCallsProps.v
theories/Props/ExampleCycleProps.v
theories/Props/FairInvokeProps.v
theories/Props/FairProps.v
theories/Props/FairWatchProps.v
theories/Props/FilterProps.v
theories/Props/FinalLogProps.v
theories/Props/FnLogProps.v
theories/Props/FnSpecProps.v
theories/Props/FnWireProps.v
theories/Props/ForeignProps.v
theories/Props/ForgetProps.v
theories/Props/GoneProps.v
theories/Props/HandlerProps.v
theories/Props/HangupProps.v
theories/Props/HttpProps.v
theories/Props/IdProps.v
theories/Props/IdTimeProps.v
theories/Props/InEffectProps.v
theories/Props/InvokeLogProps.v
theories/Props/InvokeProps.v
theories/Props/InvokeSystemProps.v
theories/Props/JsonBytesProps.v
theories/Props/JsonProps.v
theories/Props/JsonTextProps.v
theories/Props/MatchWireProps.v
theories/Props/MatchmakerProps.v
theories/Props/MetricsProps.v
theories/Props/MiscProps.v
theories/Props/MmfProps.v
theories/Props/MockProps.v
theories/Props/MockRunProps.v
theories/Props/NamesProps.v
theories/Props/NetProps.v
theories/Props/NoStopProps.v
theories/Props/NumberProps.v
theories/Props/PageProps.v
theories/Props/ProtoProps.v
theories/Props/QueueProps.v
theories/Props/RaceProps.v
theories/Props/RedisArrivalProps.v
theories/Props/RedisProps.v
theories/Props/RedisSystemProps.v
theories/Props/RedisVisibleProps.v
theories/Props/ReplyProps.v
theories/Props/ReturnProps.v
theories/Props/SampleProps.v
theories/Props/ScrapeProps.v
theories/Props/SeriesProps.v
theories/Props/SessionProps.v
theories/Props/SettingsProps.v
theories/Props/ShutdownProps.v
theories/Props/SnapshotProps.v
theories/Props/StartupProps.v
theories/Props/StateProps.v
theories/Props/StatusProps.v
theories/Props/SystemProps.v
theories/Props/TestCases.v
theories/Props/TimingProps.v
theories/Props/VisibleProps.v
theories/Props/WaitGroupProps.v
theories/Props/WatchProps.v
theories/Props/WireGrammarProps.v
theories/Props/WireLikeProps.v
theories/Props/WireProps.v
