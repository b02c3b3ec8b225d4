-Q theories Verif
theories/Base.v
theories/BaseProofs.v
theories/BitModel.v
theories/BitSpec.v
theories/BitProofs.v
theories/BitProofs2.v
theories/SimdModel.v
theories/SliceModel.v
theories/SimdProofs.v
theories/SliceSpec.v
theories/SliceProofs.v
theories/SliceProofs2.v
theories/CountSumProofs.v
theories/BitProps.v
theories/SliceProps.v
theories/IterModel.v
theories/IterSpec.v
theories/IterProofs.v
theories/IterProps.v
theories/StoreModel.v
theories/StoreSpec.v
theories/StoreProofs.v
theories/StoreProofs2.v
theories/StoreProofs3.v
theories/StoreProps.v
theories/StorageProps.v
theories/F32.v
theories/F32Proofs.v
theories/Num.v
theories/ScaledModel.v
theories/ScaledProofs.v
theories/ScaledProps.v
theories/BinnerModel.v
theories/BinnerSpec.v
theories/BinnerProofs.v
theories/BinnerProps.v
theories/DataModel.v
theories/DataSpec.v
theories/DataProofs.v
theories/DataProofs2.v
theories/DataProps.v
theories/TreeModel.v
theories/TreeSpec.v
theories/TreeProofs.v
theories/TreeProofs2.v
theories/TreeProps.v
theories/Config.v
theories/DatasetModel.v
theories/DatasetSpec.v
theories/DatasetProofs.v
theories/DatasetProofs2.v
theories/DatasetProofs3.v
theories/DatasetProofs4.v
theories/DatasetProofs5.v
theories/DatasetProofs6.v
theories/DatasetProps.v
theories/RouteProps.v
theories/LearnerModel.v
theories/LearnerSpec.v
theories/TrainSpec.v
theories/LearnerProofs.v
theories/LearnerProofs2.v
theories/LearnerProofs3.v
theories/LearnerProofs4.v
theories/LearnerProofs5.v
theories/LearnerProofs6.v
theories/LearnerProofs7.v
theories/LearnerProofs8.v
theories/LearnerProofs9.v
theories/LearnerProofs10.v
theories/GainSpec.v
theories/LearnerProps.v
theories/TrainProps.v
theories/ObjectiveModel.v
theories/MetricModel.v
theories/BoostModel.v
theories/MetricSpec.v
theories/MetricProps.v
theories/ObjectiveSpec.v
theories/ObjectiveProofs.v
theories/ObjectiveProps.v
theories/BoostSpec.v
theories/BoostProofs.v
theories/BoostProps.v
theories/TotalSpec.v
theories/TotalProofs.v
theories/TotalProofs2.v
theories/TotalProofs3.v
theories/TotalProofs4.v
theories/TotalProofs5.v
theories/TotalProofs6.v
theories/TotalProofs7.v
theories/TotalProps.v
theories/ConstProofs.v
theories/ConstProps.v
theories/ConfigModel.v
theories/ConfigSpec.v
theories/ConfigProofs.v
theories/ConfigProps.v
theories/CapiModel.v
theories/CapiSpec.v
theories/CapiProps.v
theories/Utf8Props.v
theories/SafeSpec.v
theories/SafeProofs.v
theories/SafeProofs2.v
theories/SafeProofs3.v
theories/SafeProps.v
theories/PredSpec.v
theories/PredProofs.v
theories/PredProps.v
theories/PyModel.v
theories/PySpec.v
theories/PyProofs.v
theories/PyProps.v
theories/QuantSpec.v
theories/QuantProofs.v
theories/QuantProofs2.v
theories/QuantProps.v
theories/RunModel.v
theories/RunSpec.v
theories/RunProofs.v
theories/RunProps.v
theories/NodeStoreModel.v
theories/NodeStoreSpec.v
theories/NodeStoreProofs1.v
theories/NodeStoreProofs2.v
theories/NodeStoreProofs3.v
theories/NodeStoreProofs4.v
theories/NodeStoreProps.v
theories/FitSpec.v
theories/NormProofs.v
theories/FitProps.v
theories/FitErrProofs.v
theories/FitErrSpec.v
theories/FitErrProps.v
theories/FitErrProofs2.v
theories/FitTotalProps.v
theories/GreedySpec.v
theories/GreedyProofs.v
theories/GreedyProps.v
theories/SameProps.v
theories/DebugModel.v
theories/DebugSpec.v
theories/DebugProofs.v
theories/DebugProofs2.v
theories/SumErrProofs.v
theories/ErrProofs.v
theories/ScaledErrProofs.v
theories/DebugProofs3.v
theories/DebugProofs4.v
theories/DebugProofs5.v
theories/DebugProps.v
theories/LoadSpec.v
theories/LoadProofs.v
theories/LoadProps.v
theories/GrownErrProofs.v
theories/GainErrProofs.v
theories/ErrSpec.v
theories/ErrProps.v
theories/RowProofs.v
theories/RowSpec.v
theories/RowProofs2.v
theories/RowProofs3.v
theories/RowProofs4.v
theories/RowF32Proofs.v
theories/RowProps.v
theories/PrefixSpec.v
theories/PrefixProps.v
theories/AlikeSpec.v
theories/AlikeProofs.v
theories/AlikeProofs2.v
theories/AlikeProofs3.v
theories/AlikeProps.v
theories/ShiftSpec.v
theories/ShiftProofs.v
theories/ShiftProps.v
theories/MedianSpec.v
theories/MedianProps.v
theories/UnitSpec.v
theories/UnitProofs.v
theories/UnitProofs2.v
theories/UnitProofs3.v
theories/UnitProps.v
theories/SampleSpec.v
theories/SampleProofs.v
theories/SampleProofs2.v
theories/SampleProps.v
theories/BoostingSpec.v
theories/BoostingProofs.v
theories/BoostingProps.v
theories/HuberProps.v
theories/AbsFitProps.v
theories/ScaleSpec.v
theories/ScaleProofs.v
theories/ScaleProofs2.v
theories/ScaleProps.v
theories/PruneSpec.v
theories/PruneProofs.v
theories/PruneProofs2.v
theories/PruneProps.v
theories/ColSpec.v
theories/ColProofs.v
theories/ColProofs2.v
theories/ColProofs3.v
theories/ColProofs4.v
theories/ColProofs5.v
theories/ColProofs6.v
theories/ColProps.v
theories/WideSpec.v
theories/WideProofs.v
theories/WideProofs2.v
theories/WideProofs3.v
theories/WideProofs4.v
theories/WideProofs5.v
theories/WideProps.v
theories/DupSpec.v
theories/DupProofs.v
theories/DupProofs2.v
theories/DupProofs3.v
theories/DupProofs4.v
theories/DupProps.v
theories/GapSpec.v
theories/GapProofs.v
theories/GapProofs2.v
theories/GapProofs3.v
theories/GapProps.v
theories/ReservoirModel.v
theories/ReservoirSpec.v
theories/ReservoirProofs.v
theories/ReservoirProps.v
theories/FreqSpec.v
theories/FreqProofs.v
theories/FreqProofs2.v
theories/FreqProps.v
theories/BitsetProps.v
theories/BoundProofs.v
theories/BoundProps.v
theories/HalfProps.v
theories/MuteProps.v
theories/SubsetProps.v
theories/RmseProps.v
theories/ShrinkProofs.v
theories/ShrinkProps.v
theories/ZeroProps.v
