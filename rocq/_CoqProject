-Q theories Verif
theories/Model/Base.v
theories/Proofs/BaseFacts.v
theories/Model/Dec.v
theories/Spec/DecSpec.v
theories/Proofs/DecFacts.v
theories/Proofs/DecOps.v
theories/Proofs/DecText.v
theories/Proofs/DecFloat.v
theories/Model/Time.v
theories/Spec/TimeSpec.v
theories/Proofs/TimeFacts.v
theories/Model/Value.v
theories/Model/Encoder.v
theories/Spec/EncSpec.v
theories/Proofs/DecCanon.v
theories/Proofs/JsonFacts.v
theories/Proofs/ParseFacts.v
theories/Proofs/EncFacts.v
theories/Proofs/EncFacts2.v
theories/Proofs/EncFacts3.v
theories/Model/State.v
theories/Model/Hdf5.v
theories/Model/Locks.v
theories/Model/Runtime.v
theories/Model/Driver.v
theories/Spec/DriverSpec.v
theories/Proofs/DiskFacts.v
theories/Proofs/DriverFacts.v
theories/Spec/ReachSpec.v
theories/Proofs/ReachFacts.v
theories/Model/Orm.v
theories/Model/Exec.v
theories/Model/Executor.v
theories/Model/Client.v
theories/Model/Ast.v
theories/Model/Linter.v
theories/Model/Compiler.v
theories/Spec/ExecSpec.v
theories/Spec/LintSpec.v
theories/Spec/CompSpec.v
theories/Spec/SubmitSpec.v
theories/Proofs/ExecFacts.v
theories/Proofs/ExecRel.v
theories/Proofs/MeterFacts.v
theories/Proofs/TxFacts.v
theories/Proofs/DrvRel.v
theories/Spec/OrmSpec.v
theories/Proofs/OrmFacts.v
theories/Properties/OrmProps.v
theories/Properties/DecProps.v
theories/Properties/TimeProps.v
theories/Properties/EncProps.v
theories/Properties/DriverProps.v
theories/Properties/Demo.v
theories/Proofs/LogFacts.v
theories/Proofs/CtxFacts.v
theories/Proofs/PhaseRel.v
theories/Proofs/HostFacts.v
theories/Proofs/LintFacts.v
theories/Proofs/CompFacts.v
theories/Proofs/WalkFacts.v
theories/Proofs/SubmitFacts.v
theories/Properties/LintProps.v
theories/Properties/CompProps.v
theories/Properties/ParserProps.v
theories/Properties/MeterProps.v
theories/Properties/TxProps.v
theories/Properties/CtxProps.v
theories/Properties/RandProps.v
theories/Properties/ExecProps.v
theories/Spec/DetSpec.v
theories/Spec/LockSpec.v
theories/Proofs/LockFacts.v
theories/Properties/LockProps.v
theories/Proofs/SimFacts.v
theories/Properties/DetProps.v
theories/Proofs/CommitFacts.v
theories/Properties/SubmitProps.v
theories/Spec/ClientSpec.v
theories/Properties/ClientProps.v
theories/Model/Interface.v
theories/Spec/InterfaceSpec.v
theories/Properties/InterfaceProps.v
theories/Model/Hashing.v
theories/Model/DecMore.v
theories/Model/ClientFuncs.v
theories/Spec/HashSpec.v
theories/Properties/HashProps.v
theories/Properties/DecMoreProps.v
theories/Properties/ClientCallProps.v
theories/Spec/DumpSpec.v
theories/Properties/DumpProps.v
theories/Properties/DeleteProps.v
theories/Spec/ReadsSpec.v
theories/Properties/ReadsProps.v
theories/Properties/AdmitProps.v
theories/Properties/EndsProps.v
theories/Model/TimeOps.v
theories/Spec/TimeOpsSpec.v
theories/Properties/TimeOpsProps.v
theories/Model/Random.v
theories/Properties/RandomProps.v
theories/Model/TimeText.v
theories/Model/Heap.v
theories/Spec/TimeTextSpec.v
theories/Spec/HeapSpec.v
theories/Proofs/TextFacts.v
theories/Proofs/HeapFacts.v
theories/Proofs/HeapSim.v
theories/Proofs/HeapSafe.v
theories/Properties/HeapProps.v
theories/Model/DecOps.v
theories/Spec/DecOpsSpec.v
theories/Properties/DecOpsProps.v
theories/Model/Imports.v
theories/Spec/ImportSpec.v
theories/Properties/ImportProps.v
theories/Properties/TextProps.v
theories/Model/ClientAttrs.v
theories/Spec/ClientAttrSpec.v
theories/Properties/ClientAttrProps.v
theories/Spec/IsolationSpec.v
theories/Spec/TokenSpec.v
theories/Proofs/IsoFacts.v
theories/Proofs/ModFacts.v
theories/Proofs/TokenFacts.v
theories/Properties/IsolationProps.v
theories/Properties/TokenProps.v
theories/Model/ClientObject.v
theories/Model/Process.v
theories/Model/Reports.v
theories/Properties/ClientObjectProps.v
theories/Properties/ProcessProps.v
theories/Properties/ReportProps.v
theories/Model/HeapDefaults.v
theories/Spec/DefaultSpec.v
theories/Properties/DefaultProps.v
theories/Model/ClientSubmit.v
theories/Spec/SubmissionSpec.v
theories/Properties/SubmissionProps.v
theories/Spec/DrySpec.v
theories/Properties/DryProps.v
theories/Spec/StampSpec.v
theories/Proofs/SupplyFacts.v
theories/Properties/StampProps.v
theories/Spec/BatchSpec.v
theories/Proofs/BatchFacts.v
theories/Properties/BatchProps.v
theories/Properties/FlushProps.v
theories/Model/ClientLint.v
theories/Model/ClientAnswer.v
theories/Model/OwnerOf.v
theories/Model/Attributes.v
theories/Model/Scope.v
theories/Model/DateObject.v
theories/Model/Closure.v
theories/Model/EventSchema.v
theories/Model/IndexText.v
theories/Properties/CompilesProps.v
theories/Properties/AnswerProps.v
theories/Properties/OwnerProps.v
theories/Properties/EventProps.v
theories/Properties/TracerProps.v
theories/Properties/AttributeProps.v
theories/Properties/ScopeProps.v
theories/Properties/DateObjectProps.v
theories/Properties/ClosureProps.v
theories/Properties/SetProps.v
theories/Properties/SchemaProps.v
theories/Properties/IndexProps.v
theories/Properties/ClientVarProps.v
theories/Properties/Assumptions.v
