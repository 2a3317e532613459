-Q theories Verif
theories/AggregateExamples.v
theories/AggregateModel.v
theories/AggregateProofs.v
theories/AggregateProps.v
theories/AggregateSpec.v
theories/BankExamples.v
theories/BankModel.v
theories/BankProofs.v
theories/BankProofs2.v
theories/BankProofs3.v
theories/BankProps.v
theories/BankSpec.v
theories/Base.v
theories/BaseLemmas.v
theories/BatchingExamples.v
theories/BatchingModel.v
theories/BatchingProofs.v
theories/BatchingProps.v
theories/BatchingSpec.v
theories/BroadcasterExamples.v
theories/BroadcasterModel.v
theories/BroadcasterProofs.v
theories/BroadcasterProofs2.v
theories/BroadcasterProps.v
theories/BroadcasterSpec.v
theories/DaemonExamples.v
theories/DaemonModel.v
theories/DaemonProofs.v
theories/DaemonProofs2.v
theories/DaemonProofs3.v
theories/DaemonProofs4.v
theories/DaemonProofs5.v
theories/DaemonProofs6.v
theories/DaemonProps.v
theories/DaemonSpec.v
theories/DaemonSpec2.v
theories/DeliveryExamples.v
theories/DeliveryProofs.v
theories/DeliveryProofs2.v
theories/DeliveryProofs3.v
theories/DeliveryProofs4.v
theories/DeliveryProofs5.v
theories/DeliveryProofs6.v
theories/DeliveryProofs7.v
theories/DeliveryProofs8.v
theories/DeliveryProps.v
theories/DeliverySpec.v
theories/EncodingExamples.v
theories/EncodingModel.v
theories/EncodingProofs.v
theories/EncodingProofs2.v
theories/EncodingProofs3.v
theories/EncodingProofs4.v
theories/EncodingProofs5.v
theories/EncodingProofs6.v
theories/EncodingProofs7.v
theories/EncodingProps.v
theories/EncodingSpec.v
theories/EventLogExamples.v
theories/EventLogModel.v
theories/EventLogProofs.v
theories/EventLogProofs2.v
theories/EventLogProofs3.v
theories/EventLogProps.v
theories/EventLogSpec.v
theories/EventsModel.v
theories/FeeExamples.v
theories/FeeModel.v
theories/FeeProofs.v
theories/FeeProofs2.v
theories/FeeProofs3.v
theories/FeeProofs4.v
theories/FeeProps.v
theories/FeeSpec.v
theories/GatewayExamples.v
theories/GatewayModel.v
theories/GatewayProofs.v
theories/GatewayProps.v
theories/GatewaySpec.v
theories/HandlersExamples.v
theories/HandlersModel.v
theories/HandlersProofs.v
theories/HandlersProofs2.v
theories/HandlersProofs3.v
theories/HandlersProps.v
theories/HandlersSpec.v
theories/HappenedExamples.v
theories/HappenedProofs.v
theories/HappenedProps.v
theories/HappenedSpec.v
theories/HappenedSuiExamples.v
theories/HappenedSuiProofs.v
theories/HappenedSuiProps.v
theories/HappenedSuiSpec.v
theories/JourneyExamples.v
theories/JourneyProofs.v
theories/JourneyProofs2.v
theories/JourneyProofs3.v
theories/JourneyProps.v
theories/JourneySpec.v
theories/JsonExamples.v
theories/JsonModel.v
theories/JsonProofs.v
theories/JsonProofs2.v
theories/JsonProofs3.v
theories/JsonProofs4.v
theories/JsonProps.v
theories/JsonSpec.v
theories/LivenessExamples.v
theories/LivenessProps.v
theories/LivenessSpec.v
theories/MapLemmas.v
theories/MonitorExamples.v
theories/MonitorModel.v
theories/MonitorProofs.v
theories/MonitorProofs2.v
theories/MonitorProps.v
theories/MonitorSpec.v
theories/MonitorSpec2.v
theories/MultisigExamples.v
theories/MultisigModel.v
theories/MultisigProofs.v
theories/MultisigProofs2.v
theories/MultisigProofs3.v
theories/MultisigProps.v
theories/MultisigSpec.v
theories/MultisigTypes.v
theories/NexusModel.v
theories/NexusProofs.v
theories/NexusSpec.v
theories/OperatorsModel.v
theories/ParticipantsExamples.v
theories/ParticipantsProofs.v
theories/ParticipantsProps.v
theories/ParticipantsSpec.v
theories/ProverExamples.v
theories/ProverModel.v
theories/ProverProofs.v
theories/ProverProofs2.v
theories/ProverProofs3.v
theories/ProverProofs4.v
theories/ProverProofs5.v
theories/ProverProofs6.v
theories/ProverProps.v
theories/ProverSpec.v
theories/QueryExamples.v
theories/QueryModel.v
theories/QueryProofs.v
theories/QueryProofs2.v
theories/QueryProofs3.v
theories/QueryProofs4.v
theories/QueryProofs5.v
theories/QueryProps.v
theories/QuerySpec.v
theories/QueueExamples.v
theories/QueueModel.v
theories/QueueProofs.v
theories/QueueProofs2.v
theories/QueueProps.v
theories/QueueSpec.v
theories/RegistryExamples.v
theories/RegistryModel.v
theories/RegistryProofs.v
theories/RegistryProps.v
theories/RegistrySpec.v
theories/RegistryTypes.v
theories/ReportModel.v
theories/ReportProofs.v
theories/ReportProps.v
theories/ReportSpec.v
theories/RewardsExamples.v
theories/RewardsModel.v
theories/RewardsProofs.v
theories/RewardsProofs2.v
theories/RewardsProofs3.v
theories/RewardsProofs4.v
theories/RewardsProps.v
theories/RewardsSpec.v
theories/RouterExamples.v
theories/RouterModel.v
theories/RouterProofs.v
theories/RouterProps.v
theories/RouterSpec.v
theories/RouterTypes.v
theories/SameCallExamples.v
theories/SameCallProofs.v
theories/SameCallProps.v
theories/SameCallSpec.v
theories/SigningExamples.v
theories/SigningModel.v
theories/SigningProofs.v
theories/SigningProofs2.v
theories/SigningProofs3.v
theories/SigningProps.v
theories/SigningSpec.v
theories/StateFileExamples.v
theories/StateFileModel.v
theories/StateFileProofs.v
theories/StateFileProofs2.v
theories/StateFileProps.v
theories/StateFileSpec.v
theories/StdModel.v
theories/StdProofs.v
theories/StdProps.v
theories/StdSpec.v
theories/Storage2Examples.v
theories/Storage2Model.v
theories/Storage2Proofs.v
theories/Storage2Proofs2.v
theories/Storage2Proofs3.v
theories/Storage2Proofs4.v
theories/Storage2Proofs5.v
theories/Storage2Props.v
theories/Storage2Spec.v
theories/Storage3Examples.v
theories/Storage3Model.v
theories/Storage3Proofs.v
theories/Storage3Proofs2.v
theories/Storage3Proofs3.v
theories/Storage3Proofs4.v
theories/Storage3Proofs5.v
theories/Storage3Proofs6.v
theories/Storage3Proofs7.v
theories/Storage3Props.v
theories/Storage3Spec.v
theories/Storage3Spec2.v
theories/StorageExamples.v
theories/StorageModel.v
theories/StorageProofs.v
theories/StorageProofs2.v
theories/StorageProofs3.v
theories/StorageProofs4.v
theories/StorageProofs5.v
theories/StorageProofs6.v
theories/StorageProofs7.v
theories/StorageProps.v
theories/StorageSpec.v
theories/SubscriptionExamples.v
theories/SubscriptionModel.v
theories/SubscriptionProofs.v
theories/SubscriptionProofs2.v
theories/SubscriptionProofs3.v
theories/SubscriptionProofs4.v
theories/SubscriptionProofs5.v
theories/SubscriptionProps.v
theories/SubscriptionSpec.v
theories/SuiWorkersExamples.v
theories/SuiWorkersProofs.v
theories/SuiWorkersProofs2.v
theories/SuiWorkersProps.v
theories/SuiWorkersSpec.v
theories/SystemExamples.v
theories/SystemModel.v
theories/SystemProofs.v
theories/SystemProofs2.v
theories/SystemProofs3.v
theories/SystemProofs4.v
theories/SystemProofs5.v
theories/SystemProofs6.v
theories/SystemProofs7.v
theories/SystemProofs8.v
theories/SystemProofs9.v
theories/SystemProps.v
theories/SystemSpec.v
theories/Text.v
theories/TextLemmas.v
theories/TofndExamples.v
theories/TofndModel.v
theories/TofndProofs.v
theories/TofndProofs2.v
theories/TofndProps.v
theories/TofndSpec.v
theories/TwiceExamples.v
theories/TwiceProps.v
theories/VerifierExamples.v
theories/VerifierModel.v
theories/VerifierProofs.v
theories/VerifierProofs2.v
theories/VerifierProofs3.v
theories/VerifierProofs4.v
theories/VerifierProofs5.v
theories/VerifierProofs6.v
theories/VerifierProps.v
theories/VerifierSpec.v
theories/VoteBatchExamples.v
theories/VoteBatchModel.v
theories/VoteBatchProofs.v
theories/VoteBatchProofs2.v
theories/VoteBatchProofs3.v
theories/VoteBatchProps.v
theories/WageExamples.v
theories/WageProofs.v
theories/WageProofs2.v
theories/WageProps.v
theories/WageSpec.v
theories/WireExamples.v
theories/WireModel.v
theories/WireProofs.v
theories/WireProofs10.v
theories/WireProofs11.v
theories/WireProofs12.v
theories/WireProofs2.v
theories/WireProofs3.v
theories/WireProofs4.v
theories/WireProofs5.v
theories/WireProofs6.v
theories/WireProofs7.v
theories/WireProofs8.v
theories/WireProofs9.v
theories/WireProps.v
theories/WireSpec.v
theories/WireSpec2.v
theories/WireSystemModel.v
theories/WireSystemSpec.v
theories/WorkersExamples.v
theories/WorkersProofs.v
theories/WorkersProofs2.v
theories/WorkersProps.v
theories/WorkersSpec.v
