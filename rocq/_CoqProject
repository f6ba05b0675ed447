-Q theories Verif
theories/Base.v
theories/BaseLemmas.v
theories/BitsSpec.v
theories/Bits.v
theories/BitsProofs.v
theories/BitsFinal.v
theories/CapSpec.v
theories/MapSpec.v
theories/WorldSpec.v
theories/SwissModel.v
theories/SwissArith.v
theories/SwissCap.v
theories/CapFinal.v
theories/SwissInv.v
theories/SwissOps.v
theories/SwissClean.v
theories/Props_Bits.v
theories/SwissRun.v
theories/SwissIter.v
theories/SwissRoom.v
theories/SwissRefine.v
theories/SwissFinal.v
theories/SwissMore.v
theories/SwissCopy.v
theories/World.v
theories/WorldProofs.v
theories/WorldFinal.v
theories/Instances.v
theories/Props_Swiss.v
theories/Props_World.v
theories/LinkSpec.v
theories/LinkModel.v
theories/LinkProofs.v
theories/Float32.v
theories/DenseSpec.v
theories/DenseWorldSpec.v
theories/DenseModel.v
theories/DenseRun.v
theories/DenseChain.v
theories/Float32Facts.v
theories/DenseInv.v
theories/DenseOps.v
theories/DenseEdit.v
theories/DenseErase.v
theories/DenseRefine.v
theories/DenseMono.v
theories/DenseMore.v
theories/DenseReserve.v
theories/DenseWorld.v
theories/DenseWorldProofs.v
theories/DenseFinal.v
theories/DenseInstances.v
theories/Props_Dense.v
theories/OrderedSpec.v
theories/OrderedDense.v
theories/OrderedRun.v
theories/OrderedLinks.v
theories/OrderedProofs.v
theories/OrderedRefine.v
theories/OrderedWorldSpec.v
theories/OrderedWorld.v
theories/OrderedMoves.v
theories/OrderedWorldProofs.v
theories/OrderedFinal.v
theories/OrderedInstances.v
theories/OrderedSweep.v
theories/Props_Ordered.v
theories/SwissOrderedSpec.v
theories/SwissOrdered.v
theories/SwissOrderedRun.v
theories/SwissOrderedLinks.v
theories/SwissOrderedProofs.v
theories/SwissOrderedOps.v
theories/SwissOrderedRefine.v
theories/SwissOrderedStep.v
theories/SwissOrderedWorldSpec.v
theories/SwissOrderedWorld.v
theories/SwissOrderedMoves.v
theories/SwissOrderedMerge.v
theories/SwissOrderedWorldProofs.v
theories/SwissOrderedFinal.v
theories/SwissOrderedInstances.v
theories/Props_SwissOrdered.v
theories/BufferModel.v
theories/BufferProofs.v
theories/Props_Buffer.v
theories/RefModel.v
theories/RefProofs.v
theories/Props_Refs.v
theories/WrapSpec.v
theories/WrapModel.v
theories/WrapProofs.v
theories/WrapSwiss.v
theories/WrapDense.v
theories/WrapOrdered.v
theories/WrapSwissOrdered.v
theories/Props_Wrap.v
theories/BoundsSpec.v
theories/SwissBounds.v
theories/DenseBounds.v
theories/OrderedBounds.v
theories/Props_Bounds.v
theories/NodeModel.v
theories/NodeSpec.v
theories/NodeProofs.v
theories/NodeRun.v
theories/NodeFaults.v
theories/Props_Nodes.v
theories/ThrowSpec.v
theories/ThrowModel.v
theories/ThrowProofs.v
theories/Props_Throw.v
theories/LoadSpec.v
theories/DenseLoad.v
theories/LoadInstances.v
theories/Props_Load.v
theories/PlaceSpec.v
theories/SwissPlace.v
theories/DensePlace.v
theories/PlaceInstances.v
theories/Props_Place.v
theories/CostSpec.v
theories/SwissCost.v
theories/DenseCost.v
theories/Props_Cost.v
theories/EraseLoop.v
theories/Props_Loop.v
theories/DenseBuckets.v
theories/DenseBucketProofs.v
theories/DenseBucketFinal.v
theories/Props_Bucket.v
theories/MoveModel.v
theories/MoveProofs.v
theories/MoveReclaim.v
theories/MoveFinal.v
theories/Props_Move.v
theories/UserSpec.v
theories/UserModel.v
theories/UserProofs.v
theories/Props_User.v
theories/CopyModel.v
theories/CopyProofs.v
theories/CopyDense.v
theories/Props_Copy.v
theories/UnequalModel.v
theories/UnequalDense.v
theories/UnequalOrdered.v
theories/UnequalSwiss.v
theories/UnequalFinal.v
theories/Props_Unequal.v
theories/RangeSpec.v
theories/RangeModel.v
theories/RangeProofs.v
theories/RangeSwiss.v
theories/Props_Range.v
theories/SizeModel.v
theories/SizeProofs.v
theories/SizeInstances.v
theories/Props_Size.v
theories/OrderedThrowSpec.v
theories/OrderedThrowModel.v
theories/OrderedThrowProofs.v
theories/OrderedGhost.v
theories/Props_OrderedThrow.v
theories/OrderedUserSpec.v
theories/OrderedUserModel.v
theories/OrderedUserProofs.v
theories/Props_OrderedUser.v
theories/SwapModel.v
theories/SwapProofs.v
theories/Props_Swap.v
theories/FunctorSpec.v
theories/FunctorModel.v
theories/FunctorProofs.v
theories/Props_Functor.v
theories/AssignNode.v
theories/Props_AssignNode.v
theories/CopyWorldSpec.v
theories/CopyWorld.v
theories/CopyWorldProofs.v
theories/Props_CopyWorld.v
theories/TransparentSpec.v
theories/TransparentModel.v
theories/TransparentProofs.v
theories/TransparentDenseSpec.v
theories/TransparentDenseModel.v
theories/TransparentDenseProofs.v
theories/Props_Transparent.v
theories/SelfSpec.v
theories/SelfModel.v
theories/SelfProofs.v
theories/Props_Self.v
theories/SlotsSpec.v
theories/SlotsModel.v
theories/SlotsProofs.v
theories/SlotsDenseProofs.v
theories/Props_Slots.v
theories/SlotsCost.v
theories/SlotsBounds.v
theories/SlotsDenseBounds.v
theories/Props_SlotsBounds.v
theories/EndianSpec.v
theories/EndianModel.v
theories/EndianProofs.v
theories/Props_Endian.v
theories/IterSpec.v
theories/IterModel.v
theories/IterProofs.v
theories/IterSwiss.v
theories/Props_Iter.v
theories/AssignSpec.v
theories/AssignModel.v
theories/AssignProofs.v
theories/AssignDense.v
theories/Props_Assign.v
theories/EraseThrowModel.v
theories/EraseThrowProofs.v
theories/EraseThrowOrdered.v
theories/Props_EraseThrow.v
theories/Props_EraseThrowOrdered.v
theories/OrderedCopyModel.v
theories/OrderedCopyProofs.v
theories/Props_OrderedCopy.v
theories/OrderedSparseCopyModel.v
theories/OrderedSparseCopyProofs.v
theories/Props_OrderedSparseCopy.v
theories/MoveLeftModel.v
theories/MoveLeftSwiss.v
theories/MoveLeftDense.v
theories/Props_MoveLeft.v
theories/TransparentOrderedSpec.v
theories/TransparentOrderedModel.v
theories/TransparentOrderedProofs.v
theories/TransparentOrderedDenseModel.v
theories/TransparentOrderedDense.v
theories/Props_TransparentOrdered.v
theories/OwnRangeModel.v
theories/OwnRangeSwiss.v
theories/OwnRangeDense.v
theories/Props_OwnRange.v
theories/OwnRangeOrderedModel.v
theories/OwnRangeOrdered.v
theories/OwnRangeOrderedDense.v
theories/Props_OwnRangeOrdered.v
theories/AssignOrderedModel.v
theories/AssignOrdered.v
theories/Props_AssignOrdered.v
theories/AssignOrderedDense.v
theories/Props_AssignOrderedDense.v
theories/MoveLeftOrderedModel.v
theories/MoveLeftOrdered.v
theories/MoveLeftOrderedQuiet.v
theories/Props_MoveLeftOrdered.v
theories/MoveLeftSparseModel.v
theories/MoveLeftSparse.v
theories/MoveLeftSparseQuiet.v
theories/Props_MoveLeftSparse.v
