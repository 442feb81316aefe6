-Q theories Verif
theories/M_Base.v
theories/M_TensorIndex.v
theories/S_TensorIndex.v
theories/L_TensorIndex.v
theories/P_TensorIndex.v
theories/M_Real.v
theories/M_Tolerance.v
theories/M_BBox.v
theories/M_Grid.v
theories/S_Grid.v
theories/L_Real.v
theories/L_BBox.v
theories/L_Grid.v
theories/P_Grid.v
theories/L_Tolerance.v
theories/P_BoxTol.v
theories/M_Domain.v
theories/S_Domain.v
theories/L_Domain.v
theories/L_DomainBuild.v
theories/L_DomainQ.v
theories/L_DomainT.v
theories/P_Domain.v
theories/M_Classify.v
theories/S_Classify.v
theories/L_Classify.v
theories/P_Classify.v
theories/M_QuadTP.v
theories/M_Quad.v
theories/S_Quad.v
theories/L_QuadTP.v
theories/L_Quad.v
theories/L_QuadRun.v
theories/L_QuadProps.v
theories/L_QuadMap.v
theories/P_Quad.v
theories/P_Quad4.v
theories/M_Point.v
theories/S_Point.v
theories/L_Point.v
theories/P_Point.v
theories/M_TensorNat.v
theories/L_TensorNat.v
theories/M_Mesh.v
theories/S_Mesh.v
theories/L_Mesh.v
theories/L_Mesh2.v
theories/S_MeshOps.v
theories/L_Mesh3.v
theories/L_Mesh4.v
theories/L_Mesh5.v
theories/L_Mesh6.v
theories/L_Mesh7.v
theories/P_Mesh.v
theories/M_Affine.v
theories/S_Affine.v
theories/L_Affine.v
theories/P_Affine.v
theories/M_Tpms.v
theories/M_Funcs.v
theories/L_Deriv.v
theories/L_Tpms.v
theories/S_Funcs.v
theories/L_Funcs.v
theories/L_Funcs2.v
theories/L_FuncsSign.v
theories/P_Funcs.v
theories/M_Poly.v
theories/S_Poly.v
theories/L_Poly.v
theories/L_Poly2.v
theories/L_Poly3.v
theories/L_Poly4.v
theories/L_Poly5.v
theories/L_Poly6.v
theories/L_Poly7.v
theories/L_Poly8.v
theories/L_Poly9.v
theories/L_Poly10.v
theories/P_Poly.v
theories/M_Lagrange.v
theories/S_Lagrange.v
theories/L_Lagrange.v
theories/P_Lagrange.v
theories/M_Orient.v
theories/S_Orient.v
theories/L_Orient.v
theories/L_Orient2.v
theories/L_Orient3.v
theories/P_Orient.v
theories/P_Orient2.v
theories/P_Scale.v
theories/M_Bzr.v
theories/L_Bzr.v
theories/P_Bzr.v
theories/M_Roots.v
theories/S_Roots.v
theories/L_Roots.v
theories/P_Roots.v
theories/M_General.v
theories/S_General.v
theories/L_General.v
theories/L_General2.v
theories/L_General3.v
theories/L_General4.v
theories/L_General5.v
theories/L_General6.v
theories/L_General7.v
theories/M_GaussData.v
theories/M_TanhSinhData.v
theories/M_Tables.v
theories/L_GaussHints.v
theories/L_Gauss.v
theories/L_Gauss2.v
theories/L_Gauss3.v
theories/L_Gauss4.v
theories/S_Gauss.v
theories/L_Gauss5.v
theories/L_Gauss6.v
theories/P_Gauss.v
theories/P_Gauss3.v
theories/M_Reparam.v
theories/M_BzReparam.v
theories/S_BzReparam.v
theories/L_BzReparam.v
theories/L_BzReparam2.v
theories/L_BzReparam3.v
theories/P_BzReparam.v
theories/P_BzCreate.v
theories/S_Geo.v
theories/L_Geo1.v
theories/L_Geo2.v
theories/L_Geo3.v
theories/L_Geo4.v
theories/L_Geo5.v
theories/L_Geo6.v
theories/L_Geo7.v
theories/L_Geo8.v
theories/L_Saddle.v
theories/S_Faces.v
theories/L_Faces.v
theories/P_Faces.v
theories/L_Vertex.v
theories/S_Vertex.v
theories/L_Vertex2.v
theories/L_Region3.v
theories/P_Vertex.v
theories/P_Geo.v
theories/L_Reparam.v
theories/L_Reparam2.v
theories/L_Reparam3.v
theories/P_General.v
theories/S_Create.v
theories/L_Create.v
theories/P_Create.v
theories/S_BzGeo.v
theories/L_BzGeo1.v
theories/L_BzGeo2.v
theories/L_BzGeo3.v
theories/L_BzGeo4.v
theories/P_BzGeo.v
theories/S_BzCount.v
theories/L_BzCount.v
theories/P_BzCount.v
theories/M_Vtk.v
theories/S_Vtk.v
theories/L_Vtk.v
theories/P_Vtk.v
theories/M_Phi.v
theories/S_Phi.v
theories/L_Phi.v
theories/P_Phi.v
theories/M_PyBase.v
theories/M_PyNodes.v
theories/M_PyTp.v
theories/S_PyTp.v
theories/L_PyNodes.v
theories/P_PyNodes.v
theories/L_PyTp.v
theories/L_PyTp2.v
theories/L_PyTp3.v
theories/L_PyTp4.v
theories/P_PyTp.v
theories/M_PyFacets.v
theories/S_PyFacets.v
theories/L_PyFacets.v
theories/P_PyFacets.v
theories/M_PyMesh.v
theories/S_PyMesh.v
theories/L_PyMesh.v
theories/P_PyMesh.v
theories/M_PyTpMesh.v
theories/S_PyTpMesh.v
theories/L_PyTpMesh.v
theories/L_PyTpMesh2.v
theories/L_PyTpMesh3.v
theories/P_PyTpMesh.v
theories/P_PyTpMesh2.v
theories/M_PyUnf.v
theories/S_PyUnf.v
theories/L_PyUnf.v
theories/L_PyUnf2.v
theories/L_PyUnf3.v
theories/M_PyUnfMesh.v
theories/S_PyUnfMesh.v
theories/L_PyUnfMesh.v
theories/P_PyUnf.v
theories/P_PyUnfMesh.v
theories/P_PyUnfMesh2.v
theories/M_PyReparam.v
theories/S_PyReparam.v
theories/P_PyReparam.v
theories/P_PyUnf2.v
theories/P_Tight.v
theories/M_PyQuadUtils.v
theories/M_PyPack.v
theories/S_PyQuadUtils.v
theories/S_PyPack.v
theories/L_PyQuadUtils.v
theories/L_PyPack.v
theories/L_PyPack2.v
theories/L_PyPack3.v
theories/L_PyPack4.v
theories/L_PyPack5.v
theories/L_PyPack6.v
theories/L_PyPack7.v
theories/P_PyPack.v
theories/P_PyPack2.v
theories/P_PyQuadUtils.v
theories/M_PyKernel.v
theories/S_PyKernel.v
theories/L_PyKernel.v
theories/L_PyKernel2.v
theories/L_PyKernel3.v
theories/L_PyKernel4.v
theories/P_PyKernel.v
theories/S_PyKernel2.v
theories/P_PyKernel2.v
theories/M_PyForms.v
theories/S_PyForms.v
theories/L_PyForms.v
theories/P_PyForms.v
theories/M_PyBoundary.v
theories/S_PyBoundary.v
theories/P_PyBoundary.v
theories/M_PyImpl.v
theories/S_PyImpl.v
theories/P_PyImpl.v
theories/M_PyText.v
theories/S_PyText.v
theories/P_PyText.v
theories/M_PyBind.v
theories/S_PyBind.v
theories/P_PyBind.v
theories/M_PyCache.v
theories/P_PyCache.v
theories/M_PyTables.v
theories/P_PyTables.v
theories/M_PyPlot.v
theories/P_PyPlot.v
theories/P_PyPlot2.v
theories/P_PyPlot3.v
theories/M_PyPositions.v
theories/P_PyPositions.v
theories/M_PyReparamPic.v
theories/P_PyReparamPic.v
theories/M_PyCheck.v
theories/P_PyCheck.v
theories/M_PyErase.v
theories/P_PyErase.v
theories/M_PyAccess.v
theories/P_PyAccess.v
theories/M_PyRewrite.v
theories/P_PyRewrite.v
