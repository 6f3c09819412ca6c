-Q theories Verif
theories/Types.v
theories/Sort.v
theories/RolloutModel.v
theories/RolloutSpec.v
theories/RolloutRun.v
theories/RolloutProofs.v
theories/RolloutProps.v
theories/ScaleModel.v
theories/ScaleSpec.v
theories/ScaleProofs.v
theories/ScaleProps.v
theories/RecreateModel.v
theories/RecreateSpec.v
theories/RecreateProofs.v
theories/RecreateProps.v
theories/RevisionModel.v
theories/RevisionSpec.v
theories/RevisionProofs.v
theories/RevisionProps.v
theories/StatusModel.v
theories/StatusSpec.v
theories/StatusProofs.v
theories/StatusProps.v
theories/MSetModel.v
theories/MSetSpec.v
theories/MSetProofs.v
theories/MSetProps.v
theories/OwnModel.v
theories/OwnSpec.v
theories/OwnProofs.v
theories/OwnProps.v
theories/ExpModel.v
theories/ExpSpec.v
theories/ExpProofs.v
theories/ExpProps.v
theories/FreezeModel.v
theories/FreezeSpec.v
theories/FreezeProofs.v
theories/FreezeProps.v
theories/CodesModel.v
theories/CodesSpec.v
theories/CodesProofs.v
theories/CodesProps.v
theories/MachModel.v
theories/LevModel.v
theories/LevSpec.v
theories/LevProofs.v
theories/LevProps.v
theories/ConfModel.v
theories/ConfProps.v
theories/HealthModel.v
theories/HealthSpec.v
theories/HealthProofs.v
theories/HealthProps.v
theories/LifeModel.v
theories/LifeSpec.v
theories/LifeProofs.v
theories/LifeProps.v
theories/VmSpec.v
theories/VmProofs.v
theories/VmProps.v
theories/LiveSpec.v
theories/LiveProofs.v
theories/LiveProps.v
theories/PermitModel.v
theories/PermitSpec.v
theories/PermitProofs.v
theories/PermitProps.v
theories/RateModel.v
theories/RateSpec.v
theories/RateProofs.v
theories/RateProps.v
theories/QueueModel.v
theories/QueueSpec.v
theories/QueueProofs.v
theories/QueueProps.v
theories/SafeModel.v
theories/SafeSpec.v
theories/SafeProofs.v
theories/SafeProps.v
theories/MetaModel.v
theories/MetaSpec.v
theories/MetaProofs.v
theories/MetaProps.v
theories/TaintModel.v
theories/TaintSpec.v
theories/TaintProofs.v
theories/TaintProps.v
theories/AnnoModel.v
theories/AnnoSpec.v
theories/AnnoProofs.v
theories/AnnoProps.v
theories/UserModel.v
theories/UserSpec.v
theories/UserProofs.v
theories/UserProps.v
theories/FinModel.v
theories/FinSpec.v
theories/FinProofs.v
theories/FinProps.v
theories/AttModel.v
theories/AttSpec.v
theories/AttProofs.v
theories/AttProps.v
theories/DrainModel.v
theories/DrainSpec.v
theories/DrainProofs.v
theories/DrainProps.v
theories/BudgetSpec.v
theories/BudgetProofs.v
theories/BudgetProps.v
theories/TmplModel.v
theories/TmplSpec.v
theories/TmplProofs.v
theories/TmplProps.v
theories/ValidModel.v
theories/ValidSpec.v
theories/ValidProofs.v
theories/ValidProps.v
theories/SyncModel.v
theories/SyncSpec.v
theories/SyncProofs.v
theories/SyncProps.v
theories/EventModel.v
theories/EventSpec.v
theories/EventProofs.v
theories/EventProps.v
theories/WakeModel.v
theories/WakeSpec.v
theories/WakeProofs.v
theories/WakeProps.v
theories/OrphModel.v
theories/OrphSpec.v
theories/OrphProofs.v
theories/OrphProps.v
theories/CopyModel.v
theories/CopySpec.v
theories/CopyProofs.v
theories/CopyProps.v
theories/HashModel.v
theories/HashSpec.v
theories/HashProofs.v
theories/HashProps.v
theories/NodeModel.v
theories/NodeSpec.v
theories/NodeProofs.v
theories/NodeRunProofs.v
theories/NodeProps.v
theories/CreaSpec.v
theories/CreaProofs.v
theories/CreaRunProofs.v
theories/CreaProps.v
theories/PutModel.v
theories/PutSpec.v
theories/PutProofs.v
theories/PutProps.v
theories/MakeModel.v
theories/MakeSpec.v
theories/MakeProofs.v
theories/MakeProps.v
theories/MetrModel.v
theories/MetrSpec.v
theories/MetrProofs.v
theories/MetrProps.v
theories/WholeModel.v
theories/WholeSpec.v
theories/WholeProofs.v
theories/WholeProps.v
theories/StartModel.v
theories/StartSpec.v
theories/StartProofs.v
theories/StartProps.v
theories/LagModel.v
theories/LagSpec.v
theories/LagProofs.v
theories/LagProps.v
theories/RecrSpec.v
theories/RecrProofs.v
theories/RecrProps.v
theories/CascModel.v
theories/CascSpec.v
theories/CascProofs.v
theories/CascProps.v
theories/FupdModel.v
theories/FupdSpec.v
theories/FupdProofs.v
theories/FupdProps.v
theories/HealModel.v
theories/HealSpec.v
theories/HealProofs.v
theories/HealProps.v
theories/PickModel.v
theories/PickSpec.v
theories/PickProofs.v
theories/PickProps.v
theories/JoinSpec.v
theories/JoinProofs.v
theories/JoinRunProofs.v
theories/JoinProps.v
theories/DrvModel.v
theories/DrvSpec.v
theories/DrvProofs.v
theories/DrvProps.v
theories/WishModel.v
theories/WishSpec.v
theories/WishProofs.v
theories/WishProps.v
theories/FitSets.v
theories/FitUtil.v
theories/FitNodes.v
theories/FitEvents.v
theories/FitDeploy.v
theories/FitSafety.v
theories/FitHealth.v
theories/FitLife.v
theories/FitDrain.v
theories/LateModel.v
theories/LateSpec.v
theories/LateProofs.v
theories/LateProps.v
theories/TellSpec.v
theories/TellProofs.v
theories/TellProps.v
theories/SoonModel.v
theories/SoonSpec.v
theories/SoonProofs.v
theories/SoonProps.v
theories/GoneModel.v
theories/GoneSpec.v
theories/GoneProofs.v
theories/GoneProps.v
theories/MemModel.v
theories/MemMcModel.v
theories/MemMcmModel.v
theories/MemSpec.v
theories/MemProofs.v
theories/MemRunProofs.v
theories/MemProps.v
theories/ComeModel.v
theories/ComeSpec.v
theories/ComeProofs.v
theories/ComeProps.v
theories/MarkModel.v
theories/MarkSpec.v
theories/MarkProofs.v
theories/MarkProps.v
theories/FlagModel.v
theories/FlagSpec.v
theories/FlagProofs.v
theories/FlagProps.v
theories/ClockModel.v
theories/ClockSpec.v
theories/ClockProofs.v
theories/ClockProps.v
