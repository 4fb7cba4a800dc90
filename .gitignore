__pycache__/
.nia.cache
.lia.cache
