*.vo
.lia.cache
.nia.cache
*.glob
__pycache__/
.nra.cache
